(** Reciprocity of lrprop over the reals. *)
From Verif Require Import RTac Frame SpecSwap LrProp PfFrame PfLrGen PfAvarReal.
Open Scope R_scope.

Lemma other_inv k : other (other k) = k. Proof. destruct k; reflexivity. Qed.
Lemma other_RR k : k <> RR -> other k <> RR. Proof. destruct k; cbn; congruence. Qed.
Lemma ex_sym (p q : prop RA) : exchanged p q -> exchanged q p.
Proof.
  intros (N & Z & B & K). split; [|split; [|split]].
  - intros k H. rewrite N by (apply other_RR; exact H). rewrite other_inv. reflexivity.
  - intros k H. symmetry. apply Z. exact H.
  - intro k. symmetry. apply B.
  - tauto.
Qed.
Lemma ex_getn (p q : prop RA) k : exchanged p q -> k <> RR -> getn q k = getn p (other k).
Proof. intros (N & _) H. unfold getn. rewrite N by exact H. reflexivity. Qed.
Lemma ex_getz (p q : prop RA) k : exchanged p q -> k <> KWX -> getz q k = getz p k.
Proof. intros (_ & Z & _) H. unfold getz. rewrite Z by exact H. reflexivity. Qed.
Lemma ex_getb (p q : prop RA) k : exchanged p q -> getb q k = getb p k.
Proof. intros (_ & _ & B & _). unfold getb. rewrite B. reflexivity. Qed.
Lemma ex_kwx (p q : prop RA) k : exchanged p q -> getz p KWX = Ok k -> exists k', getz q KWX = Ok k'.
Proof. intros (_ & _ & _ & [K _]) H. apply pz_getz in H. destruct K as [k' K]; [eauto|]. exists k'. apply pz_getz. exact K. Qed.
Lemma ex_setn (p q : prop RA) k v : exchanged p q -> other k = k -> exchanged (setn p k v) (setn q k v).
Proof.
  intros (N & Z & B & K) E. split; [|split; [exact Z|split; [exact B | exact K]]]. intros j J. cbn.
  destruct (nkey_eqb k j) eqn:E1.
  - apply nkey_eqb_eq in E1. subst j. rewrite E, nkey_eqb_refl. reflexivity.
  - destruct (nkey_eqb k (other j)) eqn:E2; [|apply N; exact J]. apply nkey_eqb_eq in E2. rewrite E2, other_inv in E. subst k. rewrite <- E, nkey_eqb_refl in E1. discriminate.
Qed.
Lemma ex_set2 (p q : prop RA) u v : exchanged p q -> exchanged (setn (setn p DLS0 u) DLS1 v) (setn (setn q DLS0 v) DLS1 u).
Proof.
  intros (N & Z & B & K). split; [|split; [exact Z|split; [exact B | exact K]]].
  intros j J. destruct j; cbn; try reflexivity; try (apply N; exact J); congruence.
Qed.
Lemma ex_setRR (p q : prop RA) u v : exchanged p q -> exchanged (setn p RR u) (setn q RR v).
Proof.
  intros (N & Z & B & K). split; [|split; [exact Z|split; [exact B | exact K]]].
  intros j J. destruct j; cbn; try (apply N; exact J); congruence.
Qed.
Lemma ex_setz (p q : prop RA) k v : exchanged p q -> exchanged (setz p k v) (setz q k v).
Proof.
  intros (N & Z & B & K). split; [exact N|split; [|split; [exact B|]]].
  - intros j J. cbn. destruct (zkey_eqb k j); [reflexivity | apply Z; exact J].
  - destruct k; cbn; try exact K; split; eauto.
Qed.
Lemma ex_setkwx (p q : prop RA) u v : exchanged p q -> exchanged (setz p KWX u) (setz q KWX v).
Proof.
  intros (N & Z & B & K). split; [exact N|split; [|split; [exact B|]]].
  - intros j J. destruct j; cbn; try (apply Z; exact J); congruence.
  - cbn. split; eauto.
Qed.
Lemma ex_setb (p q : prop RA) k v : exchanged p q -> exchanged (setb p k v) (setb q k v).
Proof.
  intros (N & Z & B & K). split; [exact N|split; [exact Z|split; [|exact K]]].
  intros j. cbn. destruct (bkey_eqb k j); [reflexivity | apply B].
Qed.
Lemma ex_setn' (p q : prop RA) k u v : exchanged p q -> other k = k -> u = v -> exchanged (setn p k u) (setn q k v).
Proof. intros S E ->. apply ex_setn; assumption. Qed.
Ltac exs S := repeat lazymatch goal with
  | |- exchanged (setn (setn _ DLS0 _) DLS1 _) _ => apply ex_set2
  | |- exchanged (setn _ RR _) _ => apply ex_setRR
  | |- exchanged (setn _ _ _) _ => apply ex_setn'; [|reflexivity|]
  | |- exchanged (setz _ KWX _) _ => apply ex_setkwx
  | |- exchanged (setz _ _ _) _ => apply ex_setz
  | |- exchanged (setb _ _ _) _ => apply ex_setb
  | |- exchanged _ _ => exact S
  end.
Ltac okeq H := match type of H with Ok ?a = Ok ?b => assert (a = b) by congruence; clear H end.
(** Read through the exchange. *)
Ltac exr S := match type of S with exchanged ?p ?q =>
  repeat match goal with
  | |- context [getn q ?k] => rewrite (ex_getn p q k S) by discriminate; cbn [other]
  | |- context [getz q ?k] => rewrite (ex_getz p q k S) by discriminate
  | |- context [getb q ?k] => rewrite (ex_getb p q k S)
  end end.
(** Replay the run: every successful step recorded in the context. *)
Lemma bind_step {S T} (m : res S) (k : S -> res T) v r : m = Ok v -> k v = r -> bind m k = r.
Proof. intros -> H. exact H. Qed.
Lemma bind_step_ex {S T} (m : res S) (k : S -> res T) v (P : T -> Prop) : m = Ok v -> (exists r, k v = Ok r /\ P r) -> exists r, bind m k = Ok r /\ P r.
Proof. intros -> H. exact H. Qed.
Ltac stepo := match goal with
  | E : ?m = Ok ?v |- exists _, bind ?m _ = Ok _ /\ _ => refine (bind_step_ex _ _ _ _ E _); cbv beta iota zeta
  | E : ?m = Ok ?v |- bind ?m _ = Ok _ => refine (bind_step _ _ _ _ E _); cbv beta iota zeta
  end.
Ltac invb H := let E := fresh "E" in apply bind_inv in H as [? [E H]].

Lemma sw_geom p q p' : exchanged p q -> lr_geom RA p = Ok p' -> exists q', lr_geom RA q = Ok q' /\ exchanged p' q'.
Proof.
  intros S H. unfold lr_geom in *. exr S. dsimp_in H.
  invb H. invb H. invb H. invb H. invb H. invb H. invb H. dsimp_in H. invb H. invb H. dsimp_in H. invb H. invb H. apply ok_inj in H; subst p'.
  repeat stepo. dsimp. exr S. repeat stepo. dsimp. exr S. repeat stepo. eexists. split; [reflexivity|].
  runfold. exs S; change (num RA) with R in *; try ring. 
  - rewrite (Rplus_comm x7 x6), (Rplus_comm x9 x8). reflexivity.
Qed.
Lemma sw_checks p q p' : exchanged p q -> lr_checks RA p = Ok p' -> exists q', lr_checks RA q = Ok q' /\ exchanged p' q'.
Proof.
  intros S H. unfold lr_checks in *. exr S.
  repeat invb H. apply ok_inj in H; subst p'.
  repeat (first [stepo | match goal with K : getz p KWX = Ok _ |- exists _, bind (getz q KWX) _ = _ /\ _ => destruct (ex_kwx p q _ S K) as [kq EK]; rewrite EK; cbn [bind] end]).
  eexists. split; [reflexivity|]. exs S.
Qed.
Lemma sw_adiff_init third p q p' : exchanged p q -> adiff_init RA third p = Ok p' -> exists q', adiff_init RA third q = Ok q' /\ exchanged p' q'.
Proof.
  intros S H. unfold adiff_init in *. exr S. dsimp_in H. dsimp. exr S.
  apply bind_inv in H as (hg0 & E1 & H). apply bind_inv in H as (hg1 & E2 & H). apply bind_inv in H as (he0 & E3 & H). apply bind_inv in H as (he1 & E4 & H).
  apply bind_inv in H as (mdp & E5 & H). repeat stepo. runfold. rewrite (Rmult_comm hg1 hg0), (Rmult_comm he1 he0).
  apply bind_inv in H as (t1 & E6 & H). apply bind_inv in H as (wd1 & E7 & H). repeat stepo. dsimp_in H. dsimp. exr S.
  do 4 invb H. repeat stepo. dsimp_in H. dsimp. exr S. do 5 invb H. repeat stepo.
  match goal with |- context [(?a * hg1 * hg0)%R] => replace (a * hg1 * hg0)%R with (a * hg0 * hg1)%R by ring end.
  invb H. repeat stepo. dsimp_in H. dsimp. exr S. do 3 invb H. repeat stepo. dsimp_in H. dsimp. exr S. invb H.
  apply bind_inv in H as ([q0 f0] & E20 & H). invb H. dsimp_in H. apply bind_inv in H as ([q1 f1] & E22 & H). apply ok_inj in H. subst p'.
  repeat (stepo; dsimp; exr S).
  eexists. split; [reflexivity|]. exs S; try reflexivity; change (num RA) with R in *; ring.
Qed.
Lemma add_comm (u v : num RA) : n_add u v = n_add v u. Proof. apply Rplus_comm. Qed.
Lemma mul_comm (u v : num RA) : n_mul u v = n_mul v u. Proof. apply Rmult_comm. Qed.
Lemma mul_mul (a u v : num RA) : n_mul (n_mul a u) v = n_mul (n_mul a v) u. Proof. unfold num, n_mul, RA. ring. Qed.
Lemma sw_adiff_at third d p q a : exchanged p q -> adiff_at RA third d p = Ok a -> adiff_at RA third d q = Ok a.
Proof.
  intros S H. unfold adiff_at in *. exr S. repeat invb H. repeat stepo.
  match goal with K0 : aknfe RA _ = Ok ?u, K1 : aknfe RA _ = Ok ?v |- context [n_add ?v ?u] => rewrite (add_comm v u) end.
  exact H.
Qed.
Lemma sw_alos d p q a : exchanged p q -> alos RA d p = Ok a -> alos RA d q = Ok a.
Proof.
  intros S H.
  assert (R0 : forall r, alos_refl RA d p = Ok r -> alos_refl RA d q = Ok r).
  { clear H. intros r H. unfold alos_refl in *. exr S. apply bind_inv in H as (dh & E1 & H). invb H. invb H.
    apply bind_inv in H as (he0 & E4 & H). apply bind_inv in H as (he1 & E5 & H). repeat stepo. rewrite (add_comm he1 he0). exact H. }
  assert (R1 : forall r f, alos_field RA d r p = Ok f -> alos_field RA d r q = Ok f).
  { clear H. intros r f H. unfold alos_field in *. exr S. apply bind_inv in H as (wn & E1 & H).
    apply bind_inv in H as (he0 & E4 & H). apply bind_inv in H as (he1 & E5 & H). repeat stepo. rewrite (mul_mul wn he1 he0). exact H. }
  unfold alos in *. apply bind_inv in H as ([sps r] & E1 & H). apply R0 in E1. rewrite E1. cbn [bind]. exr S. invb H. invb H. apply bind_inv in H as (f & E4 & H). apply R1 in E4.
  repeat stepo. exact H.
Qed.
Lemma sw_adiff d p q r : exchanged p q -> adiff RA d p = Ok r -> exists q', adiff RA d q = Ok (fst r, q') /\ exchanged (snd r) q'.
Proof.
  intros S H. unfold adiff in *. invb H. rewrite E. cbn [bind]. destruct (n_eqb d (n_Z 0)).
  - apply bind_inv in H as (p' & E1 & H). apply ok_inj in H. subst r. destruct (sw_adiff_init _ _ _ _ S E1) as (q' & E2 & S').
    rewrite E2. cbn [bind fst snd]. eauto.
  - apply bind_inv in H as (a & E1 & H). apply ok_inj in H. subst r. rewrite (sw_adiff_at _ _ _ _ _ S E1). cbn [bind fst snd]. eauto.
Qed.
Lemma abs_comm (u v : num RA) : n_abs (n_sub u v) = n_abs (n_sub v u). Proof. apply Rabs_minus_sym. Qed.
Ltac adiffstep S H := let r := fresh "r" in let E := fresh "E" in let qq := fresh "q" in let F := fresh "F" in let S' := fresh "S" in
  apply bind_inv in H as (r & E & H); destruct (sw_adiff _ _ _ _ S E) as (qq & F & S'); destruct r as [? ?]; cbn [fst snd] in F, S';
  refine (bind_step_ex _ _ _ _ F _); cbv beta iota zeta.
Lemma sw_diff third p q p' : exchanged p q -> lr_diff RA third p = Ok p' -> exists q', lr_diff RA third q = Ok q' /\ exchanged p' q'.
Proof.
  intros S H. unfold lr_diff in *. exr S. apply bind_inv in H as (he0 & Q1 & H). apply bind_inv in H as (he1 & Q2 & H). repeat stepo.
  rewrite (abs_comm he1 he0). apply bind_inv in H as (dm & Q3 & H). stepo.
  assert (S1 : exchanged (setn p DMIN dm) (setn q DMIN dm)) by (apply ex_setn; [exact S | reflexivity]).
  apply bind_inv in H as ([u0 p1] & Q4 & H). destruct (sw_adiff _ _ _ _ S1 Q4) as (q1 & F1 & S2). cbn [fst snd] in F1, S2.
  refine (bind_step_ex _ _ _ _ F1 _). cbv beta iota zeta. exr S2. do 3 invb H. apply bind_inv in H as (xae & Q5 & H). repeat stepo.
  assert (S3 : exchanged (setn p1 XAE xae) (setn q1 XAE xae)) by (apply ex_setn; [exact S2 | reflexivity]).
  dsimp_in H. dsimp. exr S2. do 2 invb H. repeat stepo.
  apply bind_inv in H as ([a3 p3] & Q8 & H). destruct (sw_adiff _ _ _ _ S3 Q8) as (q3 & F3 & S4). cbn [fst snd] in F3, S4.
  refine (bind_step_ex _ _ _ _ F3 _). cbv beta iota zeta.
  apply bind_inv in H as ([a4 p4] & Q9 & H). destruct (sw_adiff _ _ _ _ S4 Q9) as (q4 & F4 & S5). cbn [fst snd] in F4, S5.
  refine (bind_step_ex _ _ _ _ F4 _). cbv beta iota zeta. invb H. stepo. dsimp_in H. dsimp. exr S5.
  repeat invb H. repeat stepo. apply ok_inj in H. subst p'. eexists. split; [reflexivity|]. exs S5; reflexivity.
Qed.
Lemma sw_setup third p q p' : exchanged p q -> lr_setup RA third p = Ok p' -> exists q', lr_setup RA third q = Ok q' /\ exchanged p' q'.
Proof.
  intros S H. unfold lr_setup in *. apply bind_inv in H as (p1 & Q1 & H). destruct (sw_geom _ _ _ S Q1) as (q1 & F1 & S1). refine (bind_step_ex _ _ _ _ F1 _).
  apply bind_inv in H as (p2 & Q2 & H). destruct (sw_checks _ _ _ S1 Q2) as (q2 & F2 & S2). refine (bind_step_ex _ _ _ _ F2 _). cbv beta. eapply sw_diff; eassumption.
Qed.
Lemma sw_dist d p q p' : exchanged p q -> lr_dist RA d p = Ok p' -> exists q', lr_dist RA d q = Ok q' /\ exchanged p' q'.
Proof.
  intros S H. unfold lr_dist in *. exr S. apply bind_inv in H as (m & Q1 & H). stepo.
  assert (S1 : exchanged (if (0 <=? m)%Z then setn (setz p MDP 0) DIST d else p) (if (0 <=? m)%Z then setn (setz q MDP 0) DIST d else q)).
  { destruct (0 <=? m)%Z; [|exact S]. exs S; reflexivity. }
  revert S1 H. generalize (if (0 <=? m)%Z then setn (setz p MDP 0) DIST d else p) (if (0 <=? m)%Z then setn (setz q MDP 0) DIST d else q).
  clear p q S Q1. intros p q S H. exr S. apply bind_inv in H as (dist & Q2 & H). stepo. destruct (n_ltb _ _).
  - apply bind_inv in H as (kw & Q3 & H). destruct (ex_kwx _ _ _ S Q3) as [kw' Q4]. stepo. invb H. stepo. apply ok_inj in H. subst p'.
    eexists. split; [reflexivity|]. exs S.
  - apply ok_inj in H. subst p'. eauto.
Qed.
Lemma sw_fit aed emd d0 d1 d2 a1 a2 p q c : exchanged p q -> lr_fit RA aed emd d0 d1 d2 a1 a2 p = Ok c -> lr_fit RA aed emd d0 d1 d2 a1 a2 q = Ok c.
Proof.
  intros S H. unfold lr_fit in *. destruct (n_ltb d0 d1); [|exact H]. apply bind_inv in H as (a0 & E & H). apply (sw_alos _ _ _ _ S) in E. stepo. exact H.
Qed.
Lemma sw_los p q p' : exchanged p q -> lr_los RA p = Ok p' -> exists q', lr_los RA q = Ok q' /\ exchanged p' q'.
Proof.
  intros S H.
  assert (C : forall c, lr_los_coeffs RA p = Ok c -> lr_los_coeffs RA q = Ok c).
  { clear H. intros c H. unfold lr_los_coeffs in *. exr S. do 4 invb H. apply bind_inv in H as (he0 & Q3 & H). apply bind_inv in H as (he1 & Q4 & H). invb H.
    repeat stepo. rewrite (mul_mul _ he1 he0). apply bind_inv in H as ([d0 d1] & Q6 & H). refine (bind_step _ _ _ _ Q6 _). cbv beta iota zeta.
    apply bind_inv in H as (a1 & Q7 & H). apply (sw_alos _ _ _ _ S) in Q7. stepo. apply bind_inv in H as (f & Q8 & H). apply (sw_fit _ _ _ _ _ _ _ _ _ _ S) in Q8. stepo. exact H. }
  unfold lr_los in *. exr S. do 2 invb H. repeat stepo. destruct (n_ltb _ _); [|apply ok_inj in H; subst p'; eauto].
  invb H. repeat stepo. destruct x1; [apply ok_inj in H; subst p'; eauto|].
  apply bind_inv in H as ([[ak1 ak2] ael] & Q3 & H). apply C in Q3. refine (bind_step_ex _ _ _ _ Q3 _). cbv beta iota zeta.
  assert (S1 : exchanged (setb (setn (setn (setn p AK1 ak1) AK2 ak2) AEL ael) WLOS true) (setb (setn (setn (setn q AK1 ak1) AK2 ak2) AEL ael) WLOS true)) by (exs S; reflexivity).
  destruct (n_ltb _ _).
  - invb H. repeat stepo. apply ok_inj in H. subst p'. eexists. split; [reflexivity|]. apply ex_setn; [exact S1 | reflexivity].
  - apply ok_inj in H. subst p'. eauto.
Qed.

(** * Scatter *)
Definition same_ratio (p q : prop RA) : Prop := exists u v ad : R, pn p RR = Some u /\ pn q RR = Some v /\ pn p AD = Some ad /\ (u = v \/ ad = 0).
Lemma mix_comm (a b c : num RA) : n_add a (n_add b c) = n_add a (n_add c b). Proof. f_equal. apply add_comm. Qed.
Lemma sw_h0 (d th r1 r2 : num RA) p q h : exchanged p q -> same_ratio p q -> ascat_h0 RA d th r1 r2 p = Ok h -> ascat_h0 RA d th r2 r1 q = Ok h.
Proof.
  intros S (u & v & ad & Pu & Pv & Pa & C) H. apply pn_getn in Pu, Pv, Pa. unfold ascat_h0 in *. exr S. rewrite Pv. rewrite Pu, Pa in H. rewrite Pa. cbn [bind] in *.
  apply bind_inv in H as (ss & E1 & H). stepo. cbn [bind] in H. apply bind_inv in H as (q1 & E2 & H).
  assert (E3 : exists q2 : R, n_div (a:=RA) v ss = Ok q2 /\ (q2 = q1 \/ ss = 1)).
  { cbn in E1, E2 |- *. apply r_div_inv in E1 as [N1 V1]. apply r_div_inv in E2 as [N2 V2]. rewrite r_div_ok by exact N2. eexists; split; [reflexivity|].
    destruct C as [C|C]; [left; rewrite <- C; symmetry; exact V2 | right]. rewrite V1, C in *. field. lra. }
  destruct E3 as (q2 & E3 & C2). stepo. apply bind_inv in H as (z0 & E4 & H). stepo. apply bind_inv in H as (etq & E5 & H). stepo. apply bind_inv in H as (t & E6 & H). stepo.
  apply bind_inv in H as (t6 & E7 & H). stepo. apply bind_inv in H as (e & E8 & H). stepo. apply bind_inv in H as (et & E9 & H). stepo.
  apply bind_inv in H as (h1 & E10 & H). apply bind_inv in H as (h2 & E11 & H). stepo. stepo. apply bind_inv in H as (l1 & E12 & H). stepo. apply bind_inv in H as (l2 & E13 & H). stepo.
  apply bind_inv in H as (l3 & E14 & H). rewrite (add_comm h2 h1).
  assert (E15 : exists l3' : R, np_log (a:=RA) (pymin (pymax (n_lit 1 10) (q2 : num RA)) (n_Z 10)) = Ok l3' /\ (l2 * l3' = l2 * l3)%R).
  { cbn [np_log RA n_lit n_Z] in *. pose proof E14 as E14'. apply r_log_inv in E14 as [P V]. destruct C2 as [C2|C2].
    - rewrite C2. exists l3. split; [exact E14' | reflexivity].
    - rewrite r_log_ok. 2:{ unfold pymin, pymax. cbn [n_ltb RA]. destruct (r_ltb _ q2) eqn:B1; destruct (r_ltb 10 _) eqn:B2; rbool; lra. }
      eexists; split; [reflexivity|]. apply r_log_inv in E13 as [_ V2]. rewrite C2 in V2. unfold pymax in V2. cbn [n_ltb RA] in V2. rewrite (proj2 (r_ltb_true _ _)) in V2 by lra. rewrite ln_1 in V2. rewrite V2. ring. }
  destruct E15 as (l3' & E15 & M). stepo.
  assert (M' : forall x y : num RA, n_mul (n_mul (n_mul x l2) l3') y = n_mul (n_mul (n_mul x l2) l3) y).
  { intros x y. cbn. change (num RA) with R in *. replace (x * l2 * l3' * y)%R with (x * (l2 * l3') * y)%R by ring. rewrite M. ring. }
  rewrite M'. destruct (n_ltb et _); [|exact H].
  apply bind_inv in H as (h0 & E16 & H). apply bind_inv in E16 as (i1 & F1 & E16). apply bind_inv in E16 as (i2 & F2 & E16).
  apply bind_inv in E16 as (s & F3 & E16). apply bind_inv in E16 as (w & F4 & E16). apply bind_inv in E16 as (l & F5 & E16).
  refine (bind_step _ _ h0 _ _ _); [|exact H].
  refine (bind_step _ _ _ _ F2 _). cbv beta. refine (bind_step _ _ _ _ F1 _). cbv beta. rewrite (mul_comm (n_add _ i2) (n_add _ i1)). rewrite (add_comm r2 r1).
  repeat stepo. exact E16.
Qed.
Lemma sw_ascat d p q p' : exchanged p q -> same_ratio p q -> ascat RA d p = Ok p' -> exists q', ascat RA d q = Ok q' /\ exchanged p' q' /\ same_ratio p' q'.
Proof.
  intros S C H. unfold ascat in *. exr S. apply bind_inv in H as (h0s & E1 & H). stepo.
  apply bind_inv in H as ([h0 p1] & E2 & H).
  match goal with |- exists r, bind ?m _ = Ok r /\ _ => assert (E3 : exists r, m = Ok r /\ (fst r = h0 /\ exchanged p1 (snd r) /\ same_ratio p1 (snd r))) end.
  { destruct (n_ltb (a:=RA) (n_Z 15) h0s); [apply ok_pair in E2 as [Eh Ep]; subst h0 p1; eexists; split; [reflexivity|]; auto|].
    apply bind_inv in E2 as (the0 & F1 & E2). apply bind_inv in E2 as (the1 & F2 & E2). apply bind_inv in E2 as (gme & F3 & E2). apply bind_inv in E2 as (wn & F4 & E2).
    apply bind_inv in E2 as (he0 & F5 & E2). apply bind_inv in E2 as (he1 & F6 & E2). repeat stepo. rewrite (add_comm the1 the0).
    revert E2. set (th := n_add (n_add the0 the1) (n_mul d gme)). set (ra := n_mul (n_mul (n_mul (n_Z 2) wn) th) he0). set (rb := n_mul (n_mul (n_mul (n_Z 2) wn) th) he1).
    rewrite (andb_comm (n_ltb rb _)). destruct (_ && _)%bool; intro E2.
    - assert (S1 : exchanged (setn p ASCAT1 (n_Z 1001)) (setn q ASCAT1 (n_Z 1001))) by (apply ex_setn; [exact S | reflexivity]).
      assert (C1 : same_ratio (setn p ASCAT1 (n_Z 1001)) (setn q ASCAT1 (n_Z 1001))) by exact C.
      apply bind_inv in E2 as (h & F7 & E2). apply (sw_h0 _ _ _ _ _ _ _ S1 C1) in F7. stepo. dsimp_in E2. dsimp. apply ok_pair in E2 as [Eh Ep]; subst h0 p1. eexists; split; [reflexivity|]. cbn [fst snd].
      split; [reflexivity|]. destruct (negb _); [split; [apply ex_setn; [exact S1 | reflexivity] | exact C1] | auto].
    - apply bind_inv in E2 as (h & F7 & E2). apply (sw_h0 _ _ _ _ _ _ _ S C) in F7. stepo. exr S. apply bind_inv in E2 as (a1 & F8 & E2). stepo. apply ok_pair in E2 as [Eh Ep]; subst h0 p1. eexists; split; [reflexivity|]. cbn [fst snd].
      split; [reflexivity|]. destruct (negb _); [split; [apply ex_setn; [exact S | reflexivity] | exact C] | auto]. }
  destruct E3 as ([h q1] & E3 & E4 & S1 & C1). cbn [fst snd] in E4, S1, C1. subst h. refine (bind_step_ex _ _ _ _ E3 _). cbv beta iota zeta. exr S1.
  repeat invb H. repeat stepo. apply ok_inj in H. subst p'. eexists. split; [reflexivity|]. split; [apply ex_setn; [exact S1 | reflexivity] | exact C1].
Qed.
Lemma sw_scat_setup p q p' : exchanged p q -> heights_nonzero p -> lr_scat_setup RA p = Ok p' -> exists q', lr_scat_setup RA q = Ok q' /\ exchanged p' q'.
Proof.
  intros S [N0 N1] H. unfold lr_scat_setup in *. exr S.
  apply bind_inv in H as (dl0 & E1 & H). apply bind_inv in H as (dl1 & E2 & H). apply bind_inv in H as (he0 & E3 & H). apply bind_inv in H as (he1 & E4 & H). repeat stepo.
  assert (Z0 : (he0 : R) <> 0) by (apply pn_getn in E3; intro Z; apply N0; rewrite E3; exact (f_equal Some Z)).
  assert (Z1 : (he1 : R) <> 0) by (apply pn_getn in E4; intro Z; apply N1; rewrite E4; exact (f_equal Some Z)).
  apply bind_inv in H as (rr & E5 & H). apply bind_inv in H as ([ad rr'] & E6 & H).
  refine (bind_step_ex _ _ ((he0 : R) / he1)%R _ _ _); [apply r_div_ok; exact Z1|]. cbv beta.
  assert (E7 : exists v : R, (if n_ltb (a:=RA) (n_sub dl1 dl0) (n_Z 0) then let! rr0 := n_div (a:=RA) (n_Z 1) ((he0 : R) / he1)%R in Ok (n_opp (a:=RA) (n_sub dl1 dl0), rr0) else Ok (n_sub (a:=RA) dl1 dl0, ((he0 : R) / he1)%R)) = Ok (ad, v) /\ (v = rr' \/ ad = (0 : R))).
  { cbn in E5, E6 |- *. change (num RA) with R in *. apply r_div_inv in E5 as [_ ->].
    destruct (r_ltb (dl0 - dl1) 0) eqn:B1; destruct (r_ltb (dl1 - dl0) 0) eqn:B2; rbool; try lra.
    - rewrite r_div_ok in E6. 2:{ apply Rmult_integral_contrapositive_currified; [exact Z1 | apply Rinv_neq_0_compat; exact Z0]. }
      cbn [bind] in E6. apply ok_pair in E6 as [-> ->]. exists (he0 / he1). split; [f_equal; f_equal; ring|]. left. field. auto.
    - rewrite r_div_ok. 2:{ apply Rmult_integral_contrapositive_currified; [exact Z0 | apply Rinv_neq_0_compat; exact Z1]. }
      cbn [bind]. apply ok_pair in E6 as [-> ->]. eexists. split; [f_equal; f_equal; ring|]. left. field. auto.
    - apply ok_pair in E6 as [-> ->]. eexists. split; [f_equal; f_equal; lra|]. right. lra. }
  destruct E7 as (v & E7 & C). refine (bind_step_ex _ _ _ _ E7 _). cbv beta iota zeta. dsimp_in H. dsimp. exr S.
  apply bind_inv in H as (ens & E8 & H). stepo.
  assert (S1 : exchanged (setn (setn p AD ad) RR rr') (setn (setn q AD ad) RR v)) by (apply ex_setRR, ex_setn; [exact S | reflexivity]).
  set (etq := n_add (a:=RA) _ _) in *. clearbody etq.
  assert (S2 : exchanged (setn (setn (setn (setn p AD ad) RR rr') ETQ etq) H0S (n_Z (-15))) (setn (setn (setn (setn q AD ad) RR v) ETQ etq) H0S (n_Z (-15)))).
  { apply ex_setn; [apply ex_setn; [exact S1 | reflexivity] | reflexivity]. }
  assert (C2 : same_ratio (setn (setn (setn (setn p AD ad) RR rr') ETQ etq) H0S (n_Z (-15))) (setn (setn (setn (setn q AD ad) RR v) ETQ etq) H0S (n_Z (-15)))).
  { exists rr', v, ad. cbn. repeat split. destruct C as [C|C]; [left; congruence | right; exact C]. }
  revert S2 C2 H. generalize (setn (setn (setn (setn p AD ad) RR rr') ETQ etq) H0S (n_Z (-15))) (setn (setn (setn (setn q AD ad) RR v) ETQ etq) H0S (n_Z (-15))).
  intros p2 q2 S2 C2 H. dsimp_in H. 
  clear dependent p. clear dependent q. clear dependent dl0. clear dependent dl1. clear dependent etq. clear dependent rr. clear dependent ens. clear v rr' C ad Z0 Z1.
  exr S2. apply bind_inv in H as (dla & E1 & H). stepo.
  apply bind_inv in H as (p3 & E2 & H). destruct (sw_ascat _ _ _ _ S2 C2 E2) as (q3 & F2 & S3 & C3). stepo. exr S3.
  apply bind_inv in H as (a6 & E3 & H). stepo.
  apply bind_inv in H as (p4 & E4 & H). destruct (sw_ascat _ _ _ _ S3 C3 E4) as (q4 & F4 & S4 & C4). stepo. exr S4.
  apply bind_inv in H as (a5 & E5 & H). apply bind_inv in H as (emd & E6 & H). apply bind_inv in H as (aed & E7 & H). repeat stepo.
  clear S2 C2 S3 C3 C4 E1 E2 F2 E3 E4 F4 p2 q2 p3 q3. destruct (n_ltb a5 _).
  - apply bind_inv in H as (p5 & E8 & H). apply ok_inj in H. subst p'. apply bind_inv in E8 as (ems & E8 & H).
    dsimp_in H. apply bind_inv in H as (dlsa & F1 & H). apply bind_inv in H as (xae & F2 & H). apply bind_inv in H as (wn & F3 & H). apply bind_inv in H as (l & F4 & H). apply bind_inv in H as (t & F5 & H).
    apply ok_inj in H. subst p5.
    refine (bind_step_ex _ _ _ _ _ _). { stepo. dsimp. exr S4. repeat stepo. reflexivity. }
    cbv beta. eexists. split; [reflexivity|]. exs S4; reflexivity.
  - apply bind_inv in H as (p5 & E8 & H). apply ok_inj in E8. subst p5. apply ok_inj in H. subst p'. cbn [bind]. eexists. split; [reflexivity|]. exs S4; reflexivity.
Qed.
Lemma sw_scat p q p' : exchanged p q -> heights_nonzero p -> lr_scat RA p = Ok p' -> exists q', lr_scat RA q = Ok q' /\ exchanged p' q'.
Proof.
  intros S N H. unfold lr_scat in *. exr S. apply bind_inv in H as (dist & E1 & H). apply bind_inv in H as (dlsa & E2 & H). repeat stepo.
  destruct (_ || _)%bool. 2:{ apply ok_inj in H. subst p'. eauto. }
  apply bind_inv in H as (w & E3 & H). stepo. apply bind_inv in H as (p1 & E4 & H).
  assert (E5 : exists q1, (if w then Ok q else lr_scat_setup RA q) = Ok q1 /\ exchanged p1 q1).
  { destruct w; [apply ok_inj in E4; subst p1; eauto | eapply sw_scat_setup; eassumption]. }
  destruct E5 as (q1 & E5 & S1). stepo. exr S1. apply bind_inv in H as (dx & E6 & H). stepo. destruct (n_ltb dx dist); repeat invb H; repeat stepo; apply ok_inj in H; subst p'; eexists; (split; [reflexivity|]); exs S1; reflexivity.
Qed.
Lemma hn_frame (p p' : prop RA) nk zk bk : wp (Ok p') (same_except nk zk bk p) -> ~ In HE0 nk -> ~ In HE1 nk -> heights_nonzero p -> heights_nonzero p'.
Proof. intros F N0 N1 [H0 H1]. red in F; specialize (F _ eq_refl) as [F _]. unfold heights_nonzero. rewrite !F by assumption. auto. Qed.
Lemma sw_lrprop d p q p' : exchanged p q -> heights_nonzero p -> lrprop RA d p = Ok p' -> exists q', lrprop RA d q = Ok q' /\ exchanged p' q'.
Proof.
  intros S N H. unfold lrprop in *. exr S. apply bind_inv in H as (third & E0 & H). apply bind_inv in H as (m & E1 & H). repeat stepo.
  apply bind_inv in H as (p1 & E2 & H).
  assert (E3 : exists q1, (if negb (m =? 0)%Z then lr_setup RA third q else Ok q) = Ok q1 /\ exchanged p1 q1 /\ heights_nonzero p1).
  { destruct (negb _).
    - destruct (sw_setup _ _ _ _ S E2) as (q1 & F & S1). exists q1. split; [exact F|]. split; [exact S1|]. pose proof (lr_setup_frame RA third p) as W. rewrite E2 in W.
      eapply hn_frame; [exact W| apply memn_nIn; reflexivity.. | exact N].
    - apply ok_inj in E2. subst p1. eauto. }
  destruct E3 as (q1 & E3 & S1 & N1). stepo.
  apply bind_inv in H as (p2 & E4 & H). destruct (sw_dist _ _ _ _ S1 E4) as (q2 & F4 & S2). stepo.
  assert (N2 : heights_nonzero p2). { pose proof (lr_dist_frame RA d p1) as W. rewrite E4 in W. eapply hn_frame; [exact W| apply memn_nIn; reflexivity.. | exact N1]. }
  apply bind_inv in H as (p3 & E5 & H). destruct (sw_los _ _ _ S2 E5) as (q3 & F5 & S3). stepo.
  assert (N3 : heights_nonzero p3). { pose proof (lr_los_frame RA p2) as W. rewrite E5 in W. eapply hn_frame; [exact W| apply memn_nIn; reflexivity.. | exact N2]. }
  apply bind_inv in H as (p4 & E6 & H). destruct (sw_scat _ _ _ S3 N3 E6) as (q4 & F6 & S4). stepo. exr S4.
  apply bind_inv in H as (a & E7 & H). stepo. apply ok_inj in H. subst p'. eexists. split; [reflexivity|]. exs S4; reflexivity.
Qed.

(** The error indicator. *)
Lemma warn_max_comm b c x y k : warn_max b x (warn_max c y k) = warn_max c y (warn_max b x k).
Proof. unfold warn_max. destruct b, c; lia. Qed.
Lemma warn_set_comm b c x k : warn_set b x (warn_set c x k) = warn_set c x (warn_set b x k).
Proof. destruct b, c; reflexivity. Qed.
Lemma sw_checks_kwx (p q p' q' : prop RA) (dl0 dl1 dls0 dls1 : R) : exchanged p q -> pz q KWX = pz p KWX ->
  pn p DL0 = Some dl0 -> pn p DL1 = Some dl1 -> pn p DLS0 = Some dls0 -> pn p DLS1 = Some dls1 ->
  (forall dl s, In dl [dl0; dl1] -> In s [dls0; dls1] -> dl <= 3 * s) ->
  lr_checks RA p = Ok p' -> lr_checks RA q = Ok q' -> pz q' KWX = pz p' KWX.
Proof.
  intros S K D0 D1 S0 S1 C H G. unfold lr_checks in *. revert G. exr S. intro G.
  assert (EK : getz q KWX = getz p KWX) by (unfold getz; rewrite K; reflexivity). rewrite EK in G.
  assert (F : forall k (v : R), pn p k = Some v -> getn p k = Ok v) by (intros k v E; unfold getn; rewrite E; reflexivity).
  apply F in D0, D1, S0, S1. rewrite D0, D1, S0, S1 in H, G. 
  apply bind_inv in H as (wn & E1 & H). rewrite E1 in G. cbn [bind] in G. apply bind_inv in H as (k & E2 & H). rewrite E2 in G. cbn [bind] in G.
  apply bind_inv in H as (hg0 & E3 & H). apply bind_inv in H as (hg1 & E4 & H). rewrite E4, E3 in G. cbn [bind] in G.
  apply bind_inv in H as (the0 & E5 & H). apply bind_inv in H as (the1 & E6 & H). rewrite E6, E5 in G. cbn [bind] in H, G.
  apply bind_inv in H as (ens & E7 & H). apply bind_inv in H as (gme & E8 & H). apply bind_inv in H as (zr & E9 & H). apply bind_inv in H as (zi & E10 & H). rewrite E7, E8, E9, E10 in G. cbn [bind] in G.
  apply ok_inj in H, G. subst p' q'. cbn [pz setz zkey_eqb]. cbn.
  assert (X : forall dl s : R, In dl [dl0; dl1] -> In s [dls0; dls1] -> r_ltb (3 * s) dl = false).
  { intros dl s I J. destruct (r_ltb (3 * s) dl) eqn:B; [|reflexivity]. rbool. pose proof (C dl s I J). lra. }
  rewrite !X by (cbn; auto). rewrite !orb_false_r.
  f_equal. rewrite warn_set_comm. f_equal. f_equal. f_equal. rewrite warn_max_comm. f_equal. f_equal. apply warn_max_comm.
Qed.
Lemma sw_geom_dls p p' : lr_geom RA p = Ok p' -> exists he0 he1 gme : R, pn p HE0 = Some he0 /\ pn p HE1 = Some he1 /\ pn p GME = Some gme /\
  pn p' DLS0 = Some (sqrt (2 * he0 / gme)) /\ pn p' DLS1 = Some (sqrt (2 * he1 / gme)) /\ pn p' DL0 = pn p DL0 /\ pn p' DL1 = pn p DL1 /\ pz p' KWX = pz p KWX.
Proof.
  intro H. unfold lr_geom in H. apply bind_inv in H as (he0 & E1 & H). apply bind_inv in H as (he1 & E2 & H). apply bind_inv in H as (gme & E3 & H).
  apply bind_inv in H as (t0 & E4 & H). apply bind_inv in H as (s0 & E5 & H). apply bind_inv in H as (t1 & E6 & H). apply bind_inv in H as (s1 & E7 & H).
  dsimp_in H. apply bind_inv in H as (dl0 & E8 & H). apply bind_inv in H as (dl1 & E9 & H). dsimp_in H. apply bind_inv in H as (the0 & F1 & H). apply bind_inv in H as (the1 & F2 & H). apply ok_inj in H. subst p'.
  apply r_div_inv in E4 as [_ ->]. apply r_div_inv in E6 as [_ ->]. apply r_sqrt_inv in E5 as [_ ->]. apply r_sqrt_inv in E7 as [_ ->].
  exists he0, he1, gme. apply pn_getn in E1, E2, E3. repeat split; assumption || reflexivity.
Qed.
Lemma sw_dist_kwx d (p q p' q' : prop RA) : exchanged p q -> pz q KWX = pz p KWX -> lr_dist RA d p = Ok p' -> lr_dist RA d q = Ok q' -> pz q' KWX = pz p' KWX.
Proof.
  intros S K H G. unfold lr_dist in *. revert G. exr S. intro G. apply bind_inv in H as (m & Q1 & H). rewrite Q1 in G. cbn [bind] in G.
  assert (S1 : exchanged (if (0 <=? m)%Z then setn (setz p MDP 0) DIST d else p) (if (0 <=? m)%Z then setn (setz q MDP 0) DIST d else q)).
  { destruct (0 <=? m)%Z; [|exact S]. exs S; reflexivity. }
  assert (K1 : pz (if (0 <=? m)%Z then setn (setz q MDP 0) DIST d else q) KWX = pz (if (0 <=? m)%Z then setn (setz p MDP 0) DIST d else p) KWX) by (destruct (0 <=? m)%Z; exact K).
  revert S1 K1 H G. generalize (if (0 <=? m)%Z then setn (setz p MDP 0) DIST d else p) (if (0 <=? m)%Z then setn (setz q MDP 0) DIST d else q).
  clear p q S K Q1. intros p q S K H G. revert G. exr S. intro G. apply bind_inv in H as (dist & Q2 & H). rewrite Q2 in G. cbn [bind] in G. destruct (n_ltb _ _).
  - assert (EK : getz q KWX = getz p KWX) by (unfold getz; rewrite K; reflexivity). rewrite EK in G. apply bind_inv in H as (kw & Q3 & H). rewrite Q3 in G. cbn [bind] in G.
    apply bind_inv in H as (dm & Q4 & H). rewrite Q4 in G. cbn [bind] in G. apply ok_inj in H, G. subst p' q'. reflexivity.
  - apply ok_inj in H, G. subst p' q'. exact K.
Qed.
Lemma kwx_frame (p p' : prop RA) nk zk bk : wp (Ok p') (same_except nk zk bk p) -> ~ In KWX zk -> pz p' KWX = pz p KWX.
Proof. intros F N. specialize (F _ eq_refl) as (_ & F & _). apply F, N. Qed.
Lemma sw_kwx d (p q p' q' : prop RA) : exchanged p q -> pz q KWX = pz p KWX -> heights_nonzero p -> short_horizons p -> lrprop RA d p = Ok p' -> lrprop RA d q = Ok q' -> pz q' KWX = pz p' KWX.
Proof.
  intros S K N C H G. apply lrprop_stages in H as (th & m & p1 & p2 & p3 & p4 & a & T & M & H1 & H2 & H3 & H4 & H5 & ->).
  apply lrprop_stages in G as (th' & m' & q1 & q2 & q3 & q4 & b & T' & M' & G1 & G2 & G3 & G4 & G5 & ->).
  assert (th' = th) as -> by (rewrite T in T'; apply ok_inj in T'; exact T'). clear T T'.
  assert (m' = m) as -> by (destruct S as (_ & SZ & _); rewrite SZ in M' by discriminate; congruence). clear M'.
  assert (W : exchanged p1 q1 /\ pz q1 KWX = pz p1 KWX).
  { destruct H1 as [[Z ->]|[Z H1]]; destruct G1 as [[Z' ->]|[Z' G1]]; try contradiction; [auto|].
    split. { destruct (sw_setup _ _ _ _ S H1) as (q1' & E & S1). rewrite E in G1. apply ok_inj in G1. subst q1'. exact S1. }
    unfold lr_setup in H1, G1. apply bind_inv in H1 as (pa & Q1 & H1). apply bind_inv in H1 as (pb & Q2 & H1). apply bind_inv in G1 as (qa & R1 & G1). apply bind_inv in G1 as (qb & R2 & G1).
    pose proof (lr_diff_frame RA th pb) as W1. rewrite H1 in W1. rewrite (kwx_frame _ _ _ _ _ W1) by (cbn; tauto). clear W1.
    pose proof (lr_diff_frame RA th qb) as W1. rewrite G1 in W1. rewrite (kwx_frame _ _ _ _ _ W1) by (cbn; tauto). clear W1.
    assert (Sa : exchanged pa qa) by (destruct (sw_geom _ _ _ S Q1) as (qa' & E & S1); rewrite E in R1; apply ok_inj in R1; subst qa'; exact S1).
    destruct (sw_geom_dls _ _ Q1) as (he0 & he1 & gme & U1 & U2 & U3 & U4 & U5 & U6 & U7 & U8). destruct (sw_geom_dls _ _ R1) as (_ & _ & _ & _ & _ & _ & _ & _ & _ & _ & V8).
    destruct C as (he0' & he1' & dl0 & dl1 & gme' & C1 & C2 & C3 & C4 & C5 & C6). rewrite C1 in U1. rewrite C2 in U2. rewrite C5 in U3. injection U1 as ->. injection U2 as ->. injection U3 as ->.
    rewrite C3 in U6. rewrite C4 in U7.
    refine (sw_checks_kwx _ _ _ _ _ _ _ _ Sa _ U6 U7 U4 U5 _ Q2 R2); [congruence|].
    intros dl s I J. destruct J as [<-|[<-|[]]]; apply C6; try exact I; cbn; auto. }
  destruct W as [S1 K1]. pose proof (sw_dist_kwx _ _ _ _ _ S1 K1 H2 G2) as K2.
  assert (L : forall x y z : prop RA, lr_los RA x = Ok y -> lr_scat RA y = Ok z -> pz z KWX = pz x KWX).
  { intros x y z X Y. pose proof (lr_los_frame RA x) as W. rewrite X in W. pose proof (lr_scat_frame RA y) as W'. rewrite Y in W'.
    rewrite (kwx_frame _ _ _ _ _ W') by (cbn; tauto). apply (kwx_frame _ _ _ _ _ W). cbn; tauto. }
  cbn. rewrite (L _ _ _ H3 H4), (L _ _ _ G3 G4). exact K2.
Qed.
