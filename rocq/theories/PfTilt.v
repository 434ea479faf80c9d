(** Runs on dictionaries that differ in the take-off angles, over the reals. *)
From Coq Require Import Lra Lia.
From Verif Require Import RTac Frame SpecTilt Stats Prep Scripts PfFrame PfRegime PfLrGen PfSwap.
Open Scope R_scope.

Section Tilt.
Context (s : R) (X : list zkey).
Implicit Types p q : prop RA.
Notation near := (turned_by s X).

Lemma nr_getn p q k : near p q -> memn k [THE0; THE1] = false -> getn q k = getn p k.
Proof. intros N M. unfold getn. rewrite (tb_n _ _ _ _ N); [reflexivity | |]; intros ->; discriminate M. Qed.
Lemma nr_getz p q k : near p q -> memz k X = false -> getz q k = getz p k.
Proof. intros N M. unfold getz. rewrite (tb_z _ _ _ _ N); [reflexivity|]. apply memz_nIn. exact M. Qed.
Lemma nr_getb p q k : near p q -> getb q k = getb p k.
Proof. intros N. unfold getb. rewrite (tb_b _ _ _ _ N). reflexivity. Qed.
Lemma nr_setn p q k v : near p q -> memn k [THE0; THE1] = false -> near (setn p k v) (setn q k v).
Proof.
  intros N M. assert (Z : k <> THE0 /\ k <> THE1) by (split; intros ->; discriminate M). destruct Z as [Z0 Z1].
  constructor; cbn [pn pz pb setn]; try apply N.
  - intros k' H0 H1. destruct (nkey_eqb k k'); [reflexivity | apply N; assumption].
  - destruct (nkey_eqb k THE0) eqn:E; [apply nkey_eqb_eq in E; contradiction | apply N].
  - destruct (nkey_eqb k THE1) eqn:E; [apply nkey_eqb_eq in E; contradiction | apply N].
Qed.
Lemma nr_setz p q k v : near p q -> near (setz p k v) (setz q k v).
Proof.
  intros N. constructor; cbn [pn pz pb setz]; try apply N.
  - intros k' H. destruct (zkey_eqb k k'); [reflexivity | apply N; assumption].
  - destruct (zkey_eqb k KWX); [split; discriminate | apply N].
Qed.
Lemma nr_setx p q k u v : near p q -> In k X -> near (setz p k u) (setz q k v).
Proof.
  intros N I. constructor; cbn [pn pz pb setz]; try apply N.
  - intros k' H. destruct (zkey_eqb k k') eqn:E; [apply zkey_eqb_eq in E; subst; contradiction | apply N; assumption].
  - destruct (zkey_eqb k KWX); [split; discriminate | apply N].
Qed.
Lemma nr_setb p q k v : near p q -> near (setb p k v) (setb q k v).
Proof.
  intros N. constructor; cbn [pn pz pb setb]; try apply N.
  intros k'. destruct (bkey_eqb k k'); [reflexivity | apply N].
Qed.
Lemma nr_angles p q : near p q -> match pn p THE0, pn p THE1 with
  | Some a, Some b => getn p THE0 = Ok a /\ getn p THE1 = Ok b /\ getn q THE0 = Ok (a + s)%R /\ getn q THE1 = Ok (b - s)%R
  | None, _ => getn p THE0 = Err KeyError /\ getn q THE0 = Err KeyError
  | Some a, None => getn p THE0 = Ok a /\ getn q THE0 = Ok (a + s)%R /\ getn p THE1 = Err KeyError /\ getn q THE1 = Err KeyError end.
Proof.
  intros N. pose proof (tb_0 _ _ _ _ N) as H0. pose proof (tb_1 _ _ _ _ N) as H1. unfold getn. rewrite H0, H1.
  destruct (pn p THE0), (pn p THE1); cbn; auto.
Qed.
Ltac nrr := repeat match goal with
  | H : near ?p ?q |- context [getn ?q ?k] => rewrite (nr_getn p q k H eq_refl)
  | H : near ?p ?q |- context [getb ?q ?k] => rewrite (nr_getb p q k H)
  | H : near ?p ?q, Z : memz ?k X = false |- context [getz ?q ?k] => rewrite (nr_getz p q k H Z)
  end.
Ltac nrs := repeat first [ assumption | apply nr_setn; [|reflexivity] | apply nr_setz | apply nr_setb ].
Ltac same := apply so_bind_same; intros ?.

Lemma nr_kwx {T} (R : T -> T -> Prop) p q k k' : near p q ->
  (forall u v, (memz KWX X = false -> u = v) -> same_outcome R (k u) (k' v)) -> same_outcome R (bind (getz p KWX) k) (bind (getz q KWX) k').
Proof.
  intros N H. unfold getz. pose proof (tb_k _ _ _ _ N) as K.
  destruct (memz KWX X) eqn:M.
  - destruct (pz p KWX) as [u|] eqn:Eu, (pz q KWX) as [v|] eqn:Ev; cbn [opt_res bind]; [apply H; discriminate | | | reflexivity].
    + destruct K as [K _]. discriminate (K eq_refl).
    + destruct K as [_ K]. discriminate (K eq_refl).
  - rewrite (tb_z _ _ _ _ N KWX) by (apply memz_nIn; exact M). destruct (pz p KWX); cbn [opt_res bind]; [apply H; reflexivity | reflexivity].
Qed.
Lemma nr_setk p q u v : near p q -> (memz KWX X = false -> u = v) -> near (setz p KWX u) (setz q KWX v).
Proof.
  intros N H. destruct (memz KWX X) eqn:M; [apply nr_setx; [exact N | apply memz_In; exact M]|]. rewrite (H eq_refl). apply nr_setz. exact N.
Qed.

Lemma turn_sum (a b : num RA) : @n_add RA (a + s)%R (b - s)%R = @n_add RA a b.
Proof. cbn [n_add RA]. change (num RA) with R in *. ring. Qed.
Lemma nr_two {T} (R : T -> T -> Prop) p q k k' : near p q ->
  (forall a b, same_outcome R (k a b) (k' (a + s)%R (b - s)%R)) ->
  same_outcome R (let! a := getn p THE0 in let! b := getn p THE1 in k a b) (let! a := getn q THE0 in let! b := getn q THE1 in k' a b).
Proof.
  intros N H. pose proof (nr_angles p q N) as HA. destruct (pn p THE0) as [a|].
  - destruct (pn p THE1) as [b|].
    + destruct HA as (-> & -> & -> & ->). apply H.
    + destruct HA as (-> & -> & -> & ->). reflexivity.
  - destruct HA as (-> & ->). reflexivity.
Qed.
Lemma nr_geom p q : near p q -> same_outcome near (lr_geom RA p) (lr_geom RA q).
Proof.
  intro N. unfold lr_geom. nrr. do 7 same. dsimp. nrr. do 2 same. dsimp.
  apply nr_two; [exact N|]. intros a8 a9. cbn [same_outcome]. rewrite turn_sum. nrs.
Qed.
(** Set-up: the two angles enter the warnings only. *)
Definition steep_alike p q : Prop := forall a b a' b' : R, pn p THE0 = Some a -> pn p THE1 = Some b -> pn q THE0 = Some a' -> pn q THE1 = Some b' ->
  (2 / 10 < Rabs a <-> 2 / 10 < Rabs a') /\ (2 / 10 < Rabs b <-> 2 / 10 < Rabs b').
Lemma steep_b (a b : R) : (2 / 10 < Rabs a <-> 2 / 10 < Rabs b) -> @n_ltb RA (@n_lit RA 2 10) (@n_abs RA a) = @n_ltb RA (@n_lit RA 2 10) (@n_abs RA b).
Proof. intro H. cbn [n_ltb n_lit n_abs RA]. destruct (r_ltb (2 / 10) (Rabs a)) eqn:B, (r_ltb (2 / 10) (Rabs b)) eqn:B'; rbool; try reflexivity; exfalso; tauto || lra. Qed.
Lemma nr_checks p q : near p q -> (In KWX X \/ steep_alike p q) -> same_outcome near (lr_checks RA p) (lr_checks RA q).
Proof.
  intros N C. unfold lr_checks. nrr. same. apply nr_kwx; [exact N|]. intros u v E. cbv zeta. do 2 same.
  pose proof (nr_angles p q N) as HA. unfold steep_alike in C. destruct (pn p THE0) as [t0|] eqn:E0; [|destruct HA as (-> & ->); reflexivity].
  destruct (pn p THE1) as [t1|] eqn:E1; [|destruct HA as (-> & -> & -> & ->); reflexivity]. destruct HA as (-> & -> & -> & ->). cbn [bind].
  do 8 same. cbn [same_outcome]. destruct C as [C|C]; [apply nr_setx; assumption|]. apply nr_setk; [exact N|]. intro M. rewrite (E M).
  destruct (C t0 t1 (t0 + s) (t1 - s) eq_refl eq_refl) as [C0 C1].
  { rewrite (tb_0 _ _ _ _ N), E0. reflexivity. } { rewrite (tb_1 _ _ _ _ N), E1. reflexivity. }
  rewrite (steep_b _ _ C0), (steep_b _ _ C1). reflexivity.
Qed.
(** The entry mdp enters the set-up only if an effective height differs from its antenna's. *)
Definition plain p : Prop := exists h0 h1 : R, pn p HG0 = Some h0 /\ pn p HG1 = Some h1 /\ pn p HE0 = Some h0 /\ pn p HE1 = Some h1 /\ 0 < h0 /\ 0 < h1.
Definition mdp_alike p q : Prop := memz MDP X = false \/ (plain p /\ (pz q MDP = None <-> pz p MDP = None)).
Lemma plain_frame nk zk bk p q : same_except nk zk bk p q -> forallb (fun k => negb (memn k nk)) [HG0; HG1; HE0; HE1] = true -> plain p -> plain q.
Proof.
  intros (F & _) M (h0 & h1 & A & B & C & D & P). cbn [forallb] in M. rewrite !andb_true_iff, !negb_true_iff in M. destruct M as (M1 & M2 & M3 & M4 & _).
  exists h0, h1. rewrite !F by (apply memn_nIn; assumption). auto.
Qed.
Lemma nr_init third p q : near p q -> mdp_alike p q -> same_outcome near (adiff_init RA third p) (adiff_init RA third q).
Proof.
  intros N M. unfold adiff_init.
  assert (H : forall k k' : num RA -> num RA -> num RA -> num RA -> num RA -> res (prop RA),
    (forall a b c d e, same_outcome near (k a b c d e) (k' a b c d e)) ->
    same_outcome near
     (let! hg0 := getn p HG0 in let! hg1 := getn p HG1 in let! he0 := getn p HE0 in let! he1 := getn p HE1 in let! mdp := getz p MDP in
      let! t := @n_div RA (n_sub (n_mul he0 he1) (n_mul hg0 hg1)) (if (mdp <? 0)%Z then n_add (n_mul hg0 hg1) (n_Z 10) else n_mul hg0 hg1) in
      let! wd1 := m_sqrt (n_add (n_Z 1) t) in k hg0 hg1 he0 he1 wd1)
     (let! hg0 := getn q HG0 in let! hg1 := getn q HG1 in let! he0 := getn q HE0 in let! he1 := getn q HE1 in let! mdp := getz q MDP in
      let! t := @n_div RA (n_sub (n_mul he0 he1) (n_mul hg0 hg1)) (if (mdp <? 0)%Z then n_add (n_mul hg0 hg1) (n_Z 10) else n_mul hg0 hg1) in
      let! wd1 := m_sqrt (n_add (n_Z 1) t) in k' hg0 hg1 he0 he1 wd1)).
  { intros k k' K. destruct M as [M|[(h0 & h1 & A1 & A2 & A3 & A4 & P0 & P1) M]].
    - nrr. do 7 same. apply K.
    - nrr. rewrite !(proj2 (pn_getn RA p _ _) A1), !(proj2 (pn_getn RA p _ _) A2), !(proj2 (pn_getn RA p _ _) A3), !(proj2 (pn_getn RA p _ _) A4). cbn [bind].
      assert (Q : forall z : Z, @n_div RA (@n_sub RA (@n_mul RA h0 h1) (@n_mul RA h0 h1)) (if (z <? 0)%Z then @n_add RA (@n_mul RA h0 h1) (n_Z 10) else @n_mul RA h0 h1) = Ok 0%R).
      { intro z. runfold. assert (0 < h0 * h1) by nra. rewrite r_div_ok by (destruct (z <? 0)%Z; nra). f_equal. unfold Rdiv. ring. }
      unfold getz. destruct (pz p MDP) as [u|], (pz q MDP) as [v|]; cbn [opt_res bind]; [| discriminate (proj1 M eq_refl) | discriminate (proj2 M eq_refl) | reflexivity].
      rewrite (Q u), (Q v). cbn [bind]. same. apply K. }
  apply H. clear H. intros a a0 a1 a2 a3. dsimp. nrr. do 4 same. dsimp. nrr. do 6 same. dsimp. nrr. do 4 same. dsimp. nrr.
  same. apply so_bind_same; intros [q0 f0]. same. apply so_bind_same; intros [q1 f1]. cbn [same_outcome]. nrs.
Qed.
Lemma nr_at third d p q : near p q -> adiff_at RA third d q = adiff_at RA third d p.
Proof. intro N. unfold adiff_at. nrr. reflexivity. Qed.
Definition near2 (r r' : num RA * prop RA) : Prop := fst r = fst r' /\ near (snd r) (snd r').
Definition near3 (r r' : num RA * prop RA) : Prop := fst r = fst r' /\ near (snd r) (snd r') /\ mdp_alike (snd r) (snd r').
Lemma alike_set p q k v : memn k [HG0; HG1; HE0; HE1] = false -> mdp_alike p q -> mdp_alike (setn p k v) (setn q k v).
Proof.
  intros K [M|[P M]]; [left; exact M | right]. split; [|exact M].
  eapply (plain_frame [k] [] []); [apply fr_setn; [cbn; rewrite nkey_eqb_refl; reflexivity | apply fr_refl] | | exact P].
  destruct k; (discriminate K || reflexivity).
Qed.
Lemma nr_adiff d p q : near p q -> mdp_alike p q -> same_outcome near3 (adiff RA d p) (adiff RA d q).
Proof.
  intros N M. unfold adiff. same. destruct (n_eqb d _).
  - pose proof (nr_init a p q N M) as I. destruct (adiff_init RA a p) as [p1|] eqn:E1, (adiff_init RA a q) as [q1|] eqn:E2; cbn in I; try contradiction; [|exact I].
    split; [reflexivity|]. split; [exact I|]. cbn [snd]. apply adiff_init_frame in E1. apply adiff_init_frame in E2. destruct M as [M|[P M]]; [left; exact M | right]. split; [eapply plain_frame; [exact E1 | reflexivity | exact P]|].
    destruct E1 as (_ & E1 & _), E2 as (_ & E2 & _). rewrite E1, E2 by (intros []). exact M.
  - rewrite (nr_at _ _ _ _ N). same. split; [reflexivity | split; [exact N | exact M]].
Qed.
Lemma nr_diff third p q : near p q -> mdp_alike p q -> same_outcome near (lr_diff RA third p) (lr_diff RA third q).
Proof.
  intros N M. unfold lr_diff. nrr. do 3 same.
  eapply so_bind; [apply nr_adiff; [nrs | apply alike_set; [reflexivity | exact M]]|]. intros [? p1] [? q1] (_ & N1 & M1). cbn [snd] in N1, M1. nrr. do 4 same. dsimp. nrr. do 2 same. dsimp. nrr.
  eapply so_bind; [apply nr_adiff; [nrs | apply alike_set; [reflexivity | exact M1]]|]. intros [b3 p2] [b3' q2] (E2 & N2 & M2). cbn [fst snd] in E2, N2, M2. subst b3'.
  eapply so_bind; [apply nr_adiff; [exact N2 | exact M2]|]. intros [b4 p3] [b4' q3] (E3 & N3 & M3). cbn [fst snd] in E3, N3, M3. subst b4'.
  same. dsimp. nrr. do 3 same. cbn [same_outcome]. nrs.
Qed.
Lemma nr_setup third p q : near p q -> mdp_alike p q -> (In KWX X \/ steep_alike p q) -> same_outcome near (lr_setup RA third p) (lr_setup RA third q).
Proof.
  intros N M C. unfold lr_setup. pose proof (nr_geom p q N) as G. destruct (lr_geom RA p) as [p1|] eqn:E1, (lr_geom RA q) as [q1|] eqn:E2; cbn in G; try contradiction; [|exact G]. cbn [bind].
  apply lr_geom_frame in E1. apply lr_geom_frame in E2. assert (C1 : In KWX X \/ steep_alike p1 q1).
  { destruct C as [C|C]; [left; exact C | right]. destruct E1 as (F1 & _), E2 as (F2 & _). unfold steep_alike. rewrite !F1, !F2 by (apply memn_nIn; reflexivity). exact C. }
  pose proof (nr_checks p1 q1 G C1) as K. destruct (lr_checks RA p1) as [p2|] eqn:E3, (lr_checks RA q1) as [q2|] eqn:E4; cbn in K; try contradiction; [|exact K]. cbn [bind].
  apply lr_checks_frame in E3. apply lr_checks_frame in E4. apply nr_diff; [exact K|]. destruct M as [M|[P M]]; [left; exact M | right].
  split; [eapply plain_frame; [exact E3 | reflexivity|]; eapply plain_frame; [exact E1 | reflexivity | exact P]|].
  destruct E1 as (_ & E1 & _), E2 as (_ & E2 & _), E3 as (_ & E3 & _), E4 as (_ & E4 & _). rewrite E3, E4, E1, E2 by (cbn; intuition discriminate). exact M.
Qed.
Lemma nr_dist d p q : near p q -> memz MDP X = false -> same_outcome near (lr_dist RA d p) (lr_dist RA d q).
Proof.
  intros N M. unfold lr_dist. nrr. same. cbv zeta.
  assert (N1 : near (if (0 <=? a)%Z then setn (setz p MDP 0) DIST d else p) (if (0 <=? a)%Z then setn (setz q MDP 0) DIST d else q)) by (destruct (0 <=? a)%Z; nrs).
  revert N1. generalize (if (0 <=? a)%Z then setn (setz p MDP 0) DIST d else p), (if (0 <=? a)%Z then setn (setz q MDP 0) DIST d else q). intros p1 q1 N1.
  nrr. same. destruct (n_ltb _ a0); [|exact N1]. apply nr_kwx; [exact N1|]. intros u v E. same. cbn [same_outcome]. apply nr_setk; [exact N1|]. intro K. rewrite (E K). reflexivity.
Qed.
Lemma nr_alos d p q : near p q -> alos RA d q = alos RA d p.
Proof. intro N. unfold alos, alos_refl, alos_field. nrr. reflexivity. Qed.
Lemma nr_coeffs p q : near p q -> lr_los_coeffs RA q = lr_los_coeffs RA p.
Proof.
  intro N. assert (L : forall d, alos RA d q = alos RA d p) by (intro d; apply nr_alos; exact N). unfold lr_los_coeffs, lr_fit. nrr.
  apply so_eq.
  repeat (rewrite ?L; match goal with
    | |- same_outcome _ (bind ?m _) (bind ?m _) => apply so_bind_same; intros ?
    | |- same_outcome _ (let (_, _) := ?m in _) (let (_, _) := ?m in _) => destruct m
    | |- same_outcome _ ?m ?m => apply so_refl; reflexivity
    | |- same_outcome _ (bind _ _) (bind _ _) => apply so_bind with (P := eq); [|intros ? ? ->]
    | |- same_outcome _ (if ?b then _ else _) (if ?b then _ else _) => destruct b
    end; cbn beta).
Qed.
Lemma nr_los p q : near p q -> same_outcome near (lr_los RA p) (lr_los RA q).
Proof.
  intro N. unfold lr_los. nrr. do 2 same. destruct (n_ltb _ _); [|exact N]. same. destruct a1; [exact N|]. rewrite (nr_coeffs _ _ N).
  apply so_bind_same; intros [[ak1 ak2] ael]. cbv zeta. destruct (n_ltb _ a); [same|]; cbn [same_outcome]; nrs.
Qed.
Lemma nr_h0 d th r1 r2 p q : near p q -> ascat_h0 RA d th r1 r2 q = ascat_h0 RA d th r1 r2 p.
Proof. intro N. unfold ascat_h0. nrr. reflexivity. Qed.
Lemma nr_ascat d p q : near p q -> same_outcome near (ascat RA d p) (ascat RA d q).
Proof.
  intro N. unfold ascat. nrr. same.
  apply so_bind with (P := near2).
  - destruct (n_ltb _ a); [split; [reflexivity | exact N]|]. apply nr_two; [exact N|]. intros t0 t1. rewrite turn_sum. do 4 same. cbv zeta.
    match goal with |- context [if ?b then setn p ASCAT1 _ else p] => destruct b end.
    + assert (N1 : near (setn p ASCAT1 (n_Z 1001)) (setn q ASCAT1 (n_Z 1001))) by nrs. rewrite (nr_h0 _ _ _ _ _ _ N1). same. rewrite (nr_getn _ _ ASCAT1 N1 eq_refl). same. split; [reflexivity|]. cbn [snd]. destruct (negb _); nrs.
    + rewrite (nr_h0 _ _ _ _ _ _ N). same. nrr. same. split; [reflexivity|]. cbn [snd]. destruct (negb _); nrs.
  - intros [h0 p1] [h0' q1] [E N1]. cbn [fst snd] in *. subst h0'. nrr. do 9 same. cbn [same_outcome]. nrs.
Qed.
Lemma nr_scat_setup p q : near p q -> same_outcome near (lr_scat_setup RA p) (lr_scat_setup RA q).
Proof.
  intro N. unfold lr_scat_setup. nrr. do 5 same. apply so_bind_same; intros [ad rr]. dsimp. nrr. same. dsimp. nrr. same.
  eapply so_bind; [apply nr_ascat; nrs|]. intros p1 q1 N1. nrr. same. eapply so_bind; [apply nr_ascat; nrs|]. intros p2 q2 N2. nrr. do 3 same.
  apply so_bind with (P := near).
  - destruct (n_ltb _ _); [|cbn [same_outcome]; nrs]. same. dsimp. nrr. do 5 same. cbn [same_outcome]. nrs.
  - intros p3 q3 N3. cbn [same_outcome]. nrs.
Qed.
Lemma nr_scat p q : near p q -> same_outcome near (lr_scat RA p) (lr_scat RA q).
Proof.
  intro N. unfold lr_scat. nrr. do 2 same. destruct (_ || _); [|exact N]. same. apply so_bind with (P := near).
  - destruct a1; [exact N | apply nr_scat_setup; exact N].
  - intros p1 q1 N1. nrr. same. destruct (n_ltb _ _); do 2 same; cbn [same_outcome]; nrs.
Qed.
(** lrprop after the set-up. *)
Lemma nr_after p q : near p q -> same_outcome near (let! p := lr_los RA p in let! p := lr_scat RA p in let! aref := getn p AREF in Ok (setn p AREF (pymax aref (n_Z 0))))
  (let! p := lr_los RA q in let! p := lr_scat RA p in let! aref := getn p AREF in Ok (setn p AREF (pymax aref (n_Z 0)))).
Proof.
  intro N. eapply so_bind; [apply nr_los; exact N|]. intros p1 q1 N1. eapply so_bind; [apply nr_scat; exact N1|]. intros p2 q2 N2. nrr. same. cbn [same_outcome]. nrs.
Qed.
Lemma nr_lrprop d p q : near p q -> memz MDP X = false -> (In KWX X \/ steep_alike p q) -> same_outcome near (lrprop RA d p) (lrprop RA d q).
Proof.
  intros N M C. unfold lrprop. same. nrr. same. apply so_bind with (P := near).
  - destruct (negb _); [apply nr_setup; [assumption | left; assumption | assumption] | exact N].
  - intros p1 q1 N1. eapply so_bind; [apply nr_dist; assumption|]. intros p2 q2 N2. apply nr_after. exact N2.
Qed.
Lemma nr_control m p q : near p q -> memz LVAR X = false -> memz MDVARX X = false -> memz KLIMX X = false ->
  same_outcome near (prep_control RA m p) (prep_control RA m q).
Proof.
  intros N M1 M2 M3. unfold prep_control. dsimp. nrr. same. dsimp. nrr. same. apply so_bind with (P := near).
  - destruct (0 <=? a0)%Z; [dsimp|]; cbn [bind same_outcome]; nrs.
  - intros p1 q1 N1. nrr. same. destruct (0 <? a1)%Z; cbn [same_outcome]; nrs.
Qed.
(** avar *)
Lemma nr_tables (i : Z) l p q : (forall k t, In (k, t) l -> memn k [THE0; THE1] = false) -> near p q ->
  same_outcome near (foldM (fun p kt => let! v := pyget (snd kt) i in Ok (setn p (fst kt) v)) l p)
    (foldM (fun p kt => let! v := pyget (snd kt) i in Ok (setn p (fst kt) v)) l q).
Proof.
  revert p q. induction l as [|[k t] l IH]; intros p q K N; cbn [foldM fst snd]; [exact N|].
  destruct (pyget t i); cbn [bind]; [|reflexivity]. apply IH; [intros; eapply K; right; eassumption|]. apply nr_setn; [exact N | eapply K; left; reflexivity].
Qed.
Lemma nr_klim p q : near p q -> memz KLIM X = false -> same_outcome near (av_klim RA p) (av_klim RA q).
Proof.
  intros N M. unfold av_klim. nrr. same. apply so_bind with (P := near).
  - destruct (_ || _); [|exact N]. apply nr_kwx; [exact N|]. intros u v E. cbn [same_outcome]. apply nr_setk; [nrs|]. intro H. rewrite (E H). reflexivity.
  - intros p1 q1 N1. nrr. same. apply nr_tables; [|exact N1]. intros k t I. cbn in I. repeat (destruct I as [I|I]; [injection I as <- _; reflexivity|]). destruct I.
Qed.
Lemma nr_mode p q : near p q -> memz MDVAR X = false -> same_outcome near (av_mode RA p) (av_mode RA q).
Proof.
  intros N M. unfold av_mode. nrr. same. cbv zeta. match goal with |- same_outcome _ (if ?b then _ else _) _ => destruct b end; [|cbn [same_outcome]; nrs].
  dsimp. apply nr_kwx; [exact N|]. intros u v E. cbn [same_outcome]. apply nr_setk; [nrs|]. intro H. rewrite (E H). reflexivity.
Qed.
Lemma nr_freq p q : near p q -> same_outcome near (av_freq RA p) (av_freq RA q).
Proof. intros N. unfold av_freq. nrr. do 6 same. dsimp. nrr. do 4 same. cbn [same_outcome]. nrs. Qed.
Lemma nr_he third p q : near p q -> same_outcome near (av_he RA third p) (av_he RA third q).
Proof. intros N. unfold av_he. nrr. do 7 same. cbn [same_outcome]. nrs. Qed.
Lemma nr_avdist p q : near p q -> same_outcome near (av_dist RA p) (av_dist RA q).
Proof.
  intros N. assert (D : av_de RA q = av_de RA p) by (unfold av_de; nrr; reflexivity). unfold av_dist. rewrite D. nrr. do 7 same. dsimp. nrr. do 7 same. dsimp. nrr. do 7 same. dsimp. nrr.
  same. dsimp. nrr. same. dsimp. nrr. do 2 same. dsimp. nrr. do 2 same. cbn [same_outcome]. nrs.
Qed.
Lemma nr_if (b : bool) (f : prop RA -> res (prop RA)) p q : near p q -> (near p q -> same_outcome near (f p) (f q)) ->
  same_outcome near (if b then f p else Ok p) (if b then f q else Ok q).
Proof. intros N H. destruct b; [exact (H N) | exact N]. Qed.
Lemma nr_refresh third p q : near p q -> memz LVAR X = false -> memz KLIM X = false -> memz MDVAR X = false ->
  same_outcome near (av_refresh RA third p) (av_refresh RA third q).
Proof.
  intros N M1 M2 M3. unfold av_refresh. nrr. same. destruct (0 <? a)%Z; [|exact N].
  eapply so_bind; [apply nr_if; [exact N | intro; apply nr_klim; assumption]|]. intros p1 q1 N1.
  eapply so_bind; [apply nr_if; [exact N1 | intro; apply nr_mode; assumption]|]. intros p2 q2 N2.
  eapply so_bind; [apply nr_if; [exact N2 | intro; apply nr_freq; assumption]|]. intros p3 q3 N3.
  eapply so_bind; [apply nr_if; [exact N3 | intro; apply nr_he; assumption]|]. intros p4 q4 N4. apply nr_avdist. exact N4.
Qed.
Lemma nr_avar zt zl zc p q : near p q -> memz LVAR X = false -> memz KLIM X = false -> memz MDVAR X = false -> memz KDV X = false ->
  same_outcome near2 (avar RA zt zl zc p) (avar RA zt zl zc q).
Proof.
  intros N M1 M2 M3 M4. unfold avar. same. eapply so_bind; [apply nr_refresh; assumption|]. intros p1 q1 N1. unfold av_quant. nrr. same.
  destruct (av_fold RA a0 zt zl zc) as [[z1 z2] z3]. cbv zeta. apply so_bind with (P := near).
  - destruct (_ || _); [|exact N1]. apply nr_kwx; [exact N1|]. intros u v E. cbn [same_outcome]. apply nr_setk; [nrs|]. intro H. rewrite (E H). reflexivity.
  - intros p2 q2 N2. unfold av_sgt, av_raw. nrr. do 3 same. split; [reflexivity | exact N2].
Qed.
End Tilt.
