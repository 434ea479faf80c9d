(** The area prediction over smooth ground equals the path prediction over straight ground. *)
From Coq Require Import Lra Lia.
From Verif Require Import RTac Frame SpecFlat Stats Prep Scripts PfReverse4 PfFrame PfRegime PfLrGen PfPrepGen PfTerminal PfHzns PfLsq PfDlthx PfPfl PfAvarReal PfTilt PfTilt2 PfTilt3 PfFlat.
Open Scope R_scope.
Implicit Types p q : prop RA.

(** ** The set-up neither reads nor writes the distance *)
Definition but_dist p q : Prop := same_except [DIST] [] [] p q.
Lemma bd_getn p q k : but_dist p q -> memn k [DIST] = false -> getn q k = getn p k.
Proof. intros (N & _) M. unfold getn. rewrite N; [reflexivity|]. apply memn_nIn. exact M. Qed.
Lemma bd_getz p q k : but_dist p q -> getz q k = getz p k.
Proof. intros (_ & Z & _). unfold getz. rewrite Z; [reflexivity | intros []]. Qed.
Lemma bd_getb p q k : but_dist p q -> getb q k = getb p k.
Proof. intros (_ & _ & B & _). unfold getb. rewrite B; [reflexivity | intros []]. Qed.
Lemma bd_setn p q k v : but_dist p q -> but_dist (setn p k v) (setn q k v).
Proof. intros (N & Z & B & F). split; [|split; [exact Z|split; [exact B | exact F]]]. intros k' K. cbn [pn setn]. destruct (nkey_eqb k k'); [reflexivity | apply N; exact K]. Qed.
Lemma bd_setz p q k v : but_dist p q -> but_dist (setz p k v) (setz q k v).
Proof. intros (N & Z & B & F). split; [exact N|]. split; [|split; [exact B | exact F]]. intros k' K. cbn [pz setz]. destruct (zkey_eqb k k'); [reflexivity | apply Z; exact K]. Qed.
Lemma bd_setb p q k v : but_dist p q -> but_dist (setb p k v) (setb q k v).
Proof. intros (N & Z & B & F). split; [exact N|]. split; [exact Z|]. split; [|exact F]. intros k' K. cbn [pb setb]. destruct (bkey_eqb k k'); [reflexivity | apply B; exact K]. Qed.
Ltac bdr := repeat match goal with
  | H : but_dist ?p ?q |- context [getn ?q ?k] => rewrite (bd_getn p q k H eq_refl)
  | H : but_dist ?p ?q |- context [getb ?q ?k] => rewrite (bd_getb p q k H)
  | H : but_dist ?p ?q |- context [getz ?q ?k] => rewrite (bd_getz p q k H)
  end.
Ltac bds := repeat first [ assumption | apply bd_setn | apply bd_setz | apply bd_setb ].
Ltac same := apply so_bind_same; intros ?.
Ltac bd := repeat first [ progress (dsimp; bdr) | same | match goal with |- same_outcome _ (let (_, _) := ?o in _) (let (_, _) := ?o in _) => destruct o end
  | match goal with |- same_outcome _ (Ok _) (Ok _) => cbn [same_outcome]; bds end ].
Lemma bd_geom p q : but_dist p q -> same_outcome but_dist (lr_geom RA p) (lr_geom RA q).
Proof. intro N. unfold lr_geom. bd. Qed.
Lemma bd_checks p q : but_dist p q -> same_outcome but_dist (lr_checks RA p) (lr_checks RA q).
Proof. intro N. unfold lr_checks. bd. Qed.
Lemma bd_init third p q : but_dist p q -> same_outcome but_dist (adiff_init RA third p) (adiff_init RA third q).
Proof. intro N. unfold adiff_init. bd. Qed.
Lemma bd_at third d p q : but_dist p q -> adiff_at RA third d q = adiff_at RA third d p.
Proof. intro N. unfold adiff_at. bdr. reflexivity. Qed.
Definition bd2 (x y : num RA * prop RA) : Prop := fst y = fst x /\ but_dist (snd x) (snd y).
Lemma bd_adiff d p q : but_dist p q -> same_outcome bd2 (adiff RA d p) (adiff RA d q).
Proof.
  intro N. unfold adiff. same. destruct (@n_eqb RA d (n_Z 0)).
  - eapply so_bind; [apply bd_init; exact N|]. intros p1 q1 N1. split; [reflexivity | exact N1].
  - rewrite (bd_at _ d p q N). same. split; [reflexivity | exact N].
Qed.
Lemma bd_diff third p q : but_dist p q -> same_outcome but_dist (lr_diff RA third p) (lr_diff RA third q).
Proof.
  intro N. unfold lr_diff. bdr. do 3 same. eapply so_bind; [apply bd_adiff; bds|]. intros [x p1] [x' q1] [_ N1]. cbn [snd] in N1.
  bdr. do 4 same. dsimp. bdr. do 2 same. eapply so_bind; [apply bd_adiff; bds|]. intros [y3 p2] [y3' q2] [E2 N2]. cbn [fst snd] in *. subst y3'.
  eapply so_bind; [apply bd_adiff; exact N2|]. intros [y4 p3] [y4' q3] [E3 N3]. cbn [fst snd] in *. subst y4'. bd.
Qed.
Lemma bd_setup third p q : but_dist p q -> same_outcome but_dist (lr_setup RA third p) (lr_setup RA third q).
Proof.
  intro N. unfold lr_setup. eapply so_bind; [apply bd_geom; exact N|]. intros p1 q1 N1. eapply so_bind; [apply bd_checks; exact N1|]. intros p2 q2 N2. apply bd_diff. exact N2.
Qed.
Lemma so_comp {T} (P Q R : T -> T -> Prop) (m n o : res T) : same_outcome P m n -> same_outcome Q n o -> (forall x y z, P x y -> Q y z -> R x z) -> same_outcome R m o.
Proof. destruct m, n, o; cbn; try contradiction; eauto; congruence. Qed.
Lemma bd_near s X p q q' (d : R) : turned_by s X p q -> but_dist q q' -> pn p DIST = Some d -> turned_by s X p (setn q' DIST d).
Proof.
  intros [N T0 T1 Z B K] (N' & Z' & B' & _) D. split.
  - intros k K0 K1. cbn [pn setn]. destruct (nkey_eqb DIST k) eqn:E; [apply nkey_eqb_eq in E; subst k; rewrite D; reflexivity|].
    rewrite N'; [apply N; assumption|]. intros [I|[]]. subst k. rewrite nkey_eqb_refl in E. discriminate.
  - cbn [pn setn nkey_eqb nkey_id Pos.eqb]. rewrite N'; [exact T0 | intros [I|[]]; discriminate].
  - cbn [pn setn nkey_eqb nkey_id Pos.eqb]. rewrite N'; [exact T1 | intros [I|[]]; discriminate].
  - intros k I. cbn [pz setn]. rewrite Z' by (intros []). apply Z. exact I.
  - intro k. cbn [pb setn]. rewrite B' by (intros []). apply B.
  - cbn [pz setn]. rewrite Z' by (intros []). exact K.
Qed.
Lemma bd_set p (d : R) : but_dist (setn p DIST d) p.
Proof.
  split; [|repeat split]. intros k K. cbn [pn setn]. destruct (nkey_eqb DIST k) eqn:E; [|reflexivity]. apply nkey_eqb_eq in E. subst k. destruct K. left. reflexivity.
Qed.
(** ** The two preparations *)
Notation near := (turned_by 0 [MDP]).
Definition step (D : R) p q : Prop := near p (setn q DIST D) /\ pn p DIST = Some D.
Lemma control_flat p q D : step D p q -> plain p -> same_outcome (fun p q => step D p q /\ plain p /\ pz p MDP = Some (-1)%Z /\ pz q MDP = Some 1%Z) (prep_control RA (-1) p) (prep_control RA 1 q).
Proof.
  intros [N E] P. unfold prep_control. dsimp.
  assert (Z : forall k, k <> MDP -> getz q k = getz p k). { intros k K. pose proof (tb_z _ _ _ _ N k ltac:(cbn; intuition)) as T. cbn [pz setn] in T. unfold getz. rewrite T. reflexivity. }
  rewrite (Z LVAR) by discriminate. same. dsimp. rewrite (Z MDVARX) by discriminate. same.
  assert (S : forall p q k v, step D p q -> step D (setz p k v) (setz q k v)).
  { clear. intros p q k v [N E]. split; [|exact E]. change (setn (setz q k v) DIST D) with (setz (setn q DIST D) k v). apply nr_setz. exact N. }
  assert (S0 : step D (setz p MDP (-1)) (setz q MDP 1)).
  { split; [|exact E]. change (setn (setz q MDP 1) DIST D) with (setz (setn q DIST D) MDP 1). apply nr_setx; [exact N | left; reflexivity]. }
  assert (PL : forall p k v, plain p -> plain (setz p k v)) by (clear; intros p k v (h0 & h1 & H); exists h0, h1; exact H).
  destruct (0 <=? a0)%Z; dsimp; cbn [bind]; dsimp; rewrite (Z KLIMX) by discriminate; same; destruct (0 <? _)%Z; cbn [same_outcome]; (split; [repeat apply S; exact S0|]); (split; [repeat apply PL; exact P|]); split; reflexivity.
Qed.
Lemma setup_flat third p q D : step D p q -> plain p -> pz p MDP = Some (-1)%Z -> pz q MDP = Some 1%Z ->
  same_outcome (fun p q => step D p q /\ pz p MDP = Some (-1)%Z /\ pz q MDP = Some 1%Z) (lr_setup RA third p) (lr_setup RA third q).
Proof.
  intros [N E] P M M'. assert (S := nr_setup 0 [MDP] third p (setn q DIST D) N). assert (B := bd_setup third _ _ (bd_set q D)).
  assert (C := so_comp _ _ (fun x z : prop RA => pn x DIST = Some D -> near x (setn z DIST D)) _ _ _ (S ltac:(right; split; [exact P|]; cbn [pz setn]; rewrite M, M'; split; discriminate) ltac:(right; apply (steep_zero [MDP]); exact N)) B).
  eapply so_and; [apply C; intros x y z X Y Z; eapply bd_near; eassumption|]. intros x y Ex Ey R. apply lr_setup_frame in Ex. apply lr_setup_frame in Ey.
  destruct Ex as (F1 & F2 & _), Ey as (_ & G2 & _). assert (T : pn x DIST = Some D) by (rewrite F1; [exact E | apply memn_nIn; reflexivity]).
  split; [split; [apply R; exact T | exact T]|]. rewrite F2, G2 by (apply memz_nIn; reflexivity). split; assumption.
Qed.
Lemma dist_flat p q D : step D p q -> pz p MDP = Some (-1)%Z -> pz q MDP = Some 1%Z -> same_outcome near (lr_dist RA 0 p) (lr_dist RA D q).
Proof.
  intros [N E] M M'. unfold lr_dist. unfold getz at 1. rewrite M. cbn [opt_res bind Z.leb Z.compare]. cbv zeta. unfold getz at 2. rewrite M'. cbn [opt_res bind Z.leb Z.compare]. cbv zeta.
  assert (N1 : near p (setn (setz q MDP 0) DIST D)).
  { destruct N as [A T0 T1 Z B K]. split; [exact A | exact T0 | exact T1 | | exact B | exact K]. intros k I. rewrite <- (Z k I). cbn [pz setz setn]. destruct (zkey_eqb MDP k) eqn:Q; [|reflexivity]. apply zkey_eqb_eq in Q. subst k. destruct I. left. reflexivity. }
  revert N1. generalize (setn (setz q MDP 0) DIST D). intros q1 N1. rewrite (nr_getn _ _ _ _ DIST N1 eq_refl), (nr_getn _ _ _ _ DMIN N1 eq_refl). same.
  destruct (n_ltb _ a); [|exact N1]. apply nr_kwx with (1 := N1). intros u v Q. same. cbn [same_outcome]. apply nr_setk; [exact N1|]. intro K. rewrite (Q K). reflexivity.
Qed.
Lemma lrprop_flat p q D : step D p q -> plain p -> pz p MDP = Some (-1)%Z -> pz q MDP = Some 1%Z -> same_outcome near (lrprop RA 0 p) (lrprop RA D q).
Proof.
  intros S P M M'. unfold lrprop. same. unfold getz at 1 2. rewrite M, M'. cbn [opt_res bind Z.eqb negb]. eapply so_bind; [apply setup_flat; eassumption|].
  intros p1 q1 (S1 & M1 & M1'). eapply so_bind; [apply dist_flat; eassumption|]. intros p2 q2 N2. apply nr_after. exact N2.
Qed.
Lemma near_but p q : near p q -> same_but_mdp p q.
Proof.
  intros [A T0 T1 Z B K]. split; [|split].
  - intro k. destruct (nkey_eqb THE0 k) eqn:E0; [apply nkey_eqb_eq in E0; subst k; rewrite T0; destruct (pn p THE0); [cbn; f_equal; apply Rplus_0_r | reflexivity]|].
    destruct (nkey_eqb THE1 k) eqn:E1; [apply nkey_eqb_eq in E1; subst k; rewrite T1; destruct (pn p THE1); [cbn; f_equal; apply Rminus_0_r | reflexivity]|].
    apply A; intros ->; rewrite nkey_eqb_refl in *; discriminate.
  - intros k K0. apply Z. intros [I|[]]. congruence.
  - exact B.
Qed.
Lemma flat_near p f v c b : path_entries p f v -> straight f c b -> 0 <= b -> within_horizons f (v HG0) (v HG1) (v GME) ->
  same_outcome near (qlrpfl RA p) (let! q := qlra RA 0 0 (setn p DH 0) in lrprop RA (path_length f) q).
Proof.
  intros P S B L. destruct (straight_geom p f v c b P S L) as (p' & Eg & Gp). replace (raised (v HG1) b) with (v HG1) in Gp by (unfold raised; rewrite Rmax_right by lra; ring). pose proof P as (Pp & W & V & H0 & H1 & G). unfold geom_entries in Gp.
  set (D := path_length f) in *. unfold qlrpfl. rewrite Eg. cbn [bind]. unfold qlra. dsimp. unfold getn. rewrite (V HG0), (V HG1), (V GME) by (cbn; tauto). cbn [opt_res bind].
  rewrite !qlra_he_R. cbn [bind]. unfold effective_height. cbn [Z.leb Z.compare]. rewrite !qlra_hor_R by lra. cbn [bind]. rewrite !rough_zero.
  match goal with |- same_outcome _ _ (bind (prep_control RA 1 ?y) _) => set (q0 := y) end. rewrite bind_assoc || idtac.
  assert (ST : step D p' q0).
  { split; [|subst p'; reflexivity]. apply same_near. subst p' q0. repeat split. intro k. cbn [pn setn]. destruct k; reflexivity. }
  assert (PL : plain p') by (exists (v HG0), (v HG1); subst p'; cbn [pn setn nkey_eqb nkey_id Pos.eqb]; rewrite (V HG0), (V HG1) by (cbn; tauto); repeat split; assumption).
  eapply so_bind; [apply control_flat; eassumption|]. intros p2 q2 (S2 & P2 & M2 & M2'). apply lrprop_flat; assumption.
Qed.
Lemma flat_same p f v c b : path_entries p f v -> straight f c b -> 0 <= b -> within_horizons f (v HG0) (v HG1) (v GME) ->
  same_outcome same_but_mdp (qlrpfl RA p) (let! q := qlra RA 0 0 (setn p DH 0) in lrprop RA (path_length f) q).
Proof. intros P S B L. eapply so_conseq; [eapply flat_near; eassumption|]. intros x y. apply near_but. Qed.
Lemma flat_quantile p f v c b zt zl zc : path_entries p f v -> straight f c b -> 0 <= b -> within_horizons f (v HG0) (v HG1) (v GME) ->
  same_outcome (fun x y => fst x = fst y /\ same_but_mdp (snd x) (snd y)) (let! q := qlrpfl RA p in avar RA zt zl zc q)
    (let! q := qlra RA 0 0 (setn p DH 0) in let! q := lrprop RA (path_length f) q in avar RA zt zl zc q).
Proof.
  intros P S B L. assert (N := flat_near p f v c b P S B L). destruct (qlra RA 0 0 (setn p DH 0)) as [q|]; cbn [bind] in N |- *.
  - eapply so_bind; [exact N|]. intros x y M. eapply so_conseq; [apply (nr_avar 0 [MDP]); [exact M | reflexivity ..]|]. intros u w [E R]. split; [exact E | apply near_but; exact R].
  - destruct (qlrpfl RA p); [contradiction | exact N].
Qed.
(** ** Falling ground *)
Lemma falling_geom p f v c b r : path_entries p f v -> straight f c b -> b < 0 -> within_horizons f (v HG0) (v HG1) (v GME) -> qlrpfl RA p = Ok r ->
  pn r DH = Some 0 /\ pn r HE0 = Some (v HG0) /\ pn r HE1 = Some (v HG1 - b) /\ pn r HG1 = Some (v HG1).
Proof.
  intros P S B L E. destruct (straight_geom p f v c b P S L) as (p' & Eg & Gp). pose proof P as (_ & _ & V & _). unfold qlrpfl in E. rewrite Eg in E. cbn [bind] in E. apply bind_inv in E as [p2 [E2 E]].
  apply prep_control_frame in E2. apply lrprop_frame in E. destruct E2 as (F1 & _), E as (F2 & _). rewrite !F2, !F1 by (apply memn_nIn; reflexivity). unfold geom_entries in Gp. subst p'. cbn [pn setn nkey_eqb nkey_id Pos.eqb].
  rewrite (V HG1) by (cbn; tauto). repeat split. unfold raised. rewrite Rmax_left by lra. f_equal; ring.
Qed.
Lemma area_geom p f v r : path_entries p f v -> (let! q := qlra RA 0 0 (setn p DH 0) in lrprop RA (path_length f) q) = Ok r -> pn r HE1 = Some (v HG1).
Proof.
  intros P E. apply bind_inv in E as [q [Eq E]]. pose proof P as (_ & _ & V & H0 & H1 & G). unfold qlra in Eq. revert Eq. dsimp. unfold getn. rewrite (V HG0), (V HG1), (V GME) by (cbn; tauto). cbn [opt_res bind].
  rewrite !qlra_he_R. cbn [bind]. unfold effective_height. cbn [Z.leb Z.compare]. rewrite !qlra_hor_R by lra. cbn [bind]. intro Eq.
  apply prep_control_frame in Eq. apply lrprop_frame in E. destruct Eq as (F1 & _), E as (F2 & _). rewrite !F2, !F1 by (apply memn_nIn; reflexivity). reflexivity.
Qed.
Lemma falling_differs p f v c b r r' : path_entries p f v -> straight f c b -> b < 0 -> within_horizons f (v HG0) (v HG1) (v GME) -> qlrpfl RA p = Ok r ->
  (let! q := qlra RA 0 0 (setn p DH 0) in lrprop RA (path_length f) q) = Ok r' -> ~ same_but_mdp r r'.
Proof.
  intros P S B L E E' (N & _). destruct (falling_geom p f v c b r P S B L E) as (_ & _ & K & _). pose proof (area_geom p f v r' P E') as K'. rewrite N, K in K'. injection K' as K'. lra.
Qed.
(** ** Any two straight profiles of the same length *)
Lemma two_straight p q f f' v c b c' b' : path_entries p f v -> same_entries p q -> ppfl q = Some f' -> well_formed f' -> path_length f' = path_length f ->
  straight f c b -> straight f' c' b' -> 0 <= b -> 0 <= b' -> within_horizons f (v HG0) (v HG1) (v GME) ->
  same_outcome (fun x y => same_entries x y /\ ppfl x = Some f /\ ppfl y = Some f') (qlrpfl RA p) (qlrpfl RA q).
Proof.
  intros P Sm Pf W' Le S S' B B' L. pose proof P as (Pp & W & V & H0 & H1 & G). pose proof Sm as (Sn & Sz & Sb).
  assert (P' : path_entries q f' v). { split; [exact Pf|]. split; [exact W'|]. split; [intros k K; rewrite Sn; apply V; exact K | auto]. }
  assert (L' : within_horizons f' (v HG0) (v HG1) (v GME)) by (unfold within_horizons; rewrite Le; exact L).
  destruct (straight_geom p f v c b P S L) as (p1 & Ep & Gp). destruct (straight_geom q f' v c' b' P' S' L') as (q1 & Eq & Gq).
  replace (raised (v HG1) b) with (v HG1) in Gp by (unfold raised; rewrite Rmax_right by lra; ring). replace (raised (v HG1) b') with (v HG1) in Gq by (unfold raised; rewrite Rmax_right by lra; ring).
  unfold qlrpfl. rewrite Ep, Eq. cbn [bind]. rewrite Le in Gq. unfold geom_entries in Gp, Gq.
  assert (N1 : turned_by 0 [] p1 q1). { apply same_near. subst p1 q1. repeat split; [|exact Sz | exact Sb]. intro k. cbn [pn setn]. rewrite Sn. reflexivity. }
  assert (F1 : ppfl p1 = Some f /\ ppfl q1 = Some f') by (subst p1 q1; split; assumption). destruct F1 as [F1 F1'].
  apply so_and with (P := turned_by 0 []).
  - eapply so_bind; [apply (nr_control 0 []); [exact N1 | reflexivity..]|]. intros p2 q2 N2. apply (nr_lrprop 0 []); [exact N2 | reflexivity | right; apply (steep_zero []); exact N2].
  - intros x y Ex Ey N. apply bind_inv in Ex as [p2 [Ex1 Ex]]. apply bind_inv in Ey as [q2 [Ey1 Ey]]. apply prep_control_frame in Ex1, Ey1. apply lrprop_frame in Ex, Ey.
    destruct Ex1 as (_ & _ & _ & X1), Ey1 as (_ & _ & _ & Y1), Ex as (_ & _ & _ & X2), Ey as (_ & _ & _ & Y2). split; [apply near_same; exact N|]. split; congruence.
Qed.
Lemma script_length d z : (2 <= length z)%nat -> path_length (script_path d z) = 1000 * d.
Proof.
  intro L. unfold path_length, script_path, intervals. cbn [pf_np pf_xi]. change (num RA) with R in *. rewrite INR_IZR_INZ, Z2Nat.id by lia. field. apply not_0_IZR. lia.
Qed.
Lemma prepare_flat (z z' : list R) p (d h0 h1 c b c' b' : R) : (2 <= length z)%nat -> (2 <= length z')%nat -> pn p DKM = Some d -> 0 < d -> pn p HG0 = Some h0 -> pn p HG1 = Some h1 -> 0 < h0 -> 0 < h1 ->
  let f := script_path d z in let f' := script_path d z' in straight f c b -> straight f' c' b' -> 0 <= b -> 0 <= b' -> within_horizons f h0 h1 script_curvature ->
  same_outcome (fun x y => same_entries x y /\ ppfl x = Some f /\ ppfl y = Some f') (p2p_prepare RA z p) (p2p_prepare RA z' p).
Proof.
  intros L L' Ed Pd E0 E1 P0 P1 f f' S S' B B' C. unfold p2p_prepare. cbv zeta. dsimp.
  assert (G : getn p DKM = Ok d) by (apply pn_getn; exact Ed). rewrite G. cbn [bind].
  rewrite (profile_run d z Pd L : p2p_profile RA d z = _), (profile_run d z' Pd L' : p2p_profile RA d z' = _). fold f f'. cbn [bind]. dsimp.
  apply so_bind_same. intro fm. apply so_bind_same. intro wn.
  unfold script_gme. cbv zeta. runfold. rewrite r_div_ok by lra. cbn [bind]. dsimp. apply so_bind_same. intro ip. apply so_bind_same. intros [zr zi].
  set (v := fun k => match k with HG0 => h0 | HG1 => h1 | _ => script_curvature end).
  eapply two_straight with (v := v) (1 := ltac:(shelve)); [repeat split; reflexivity | reflexivity | apply script_wf; assumption | unfold f, f'; rewrite !script_length by assumption; reflexivity | exact S | exact S' | exact B | exact B' | exact C].
  Unshelve. split; [reflexivity|]. split; [apply script_wf; assumption|]. split; [|cbn; split; [exact P0|split; [exact P1 | exact curvature_pos]]].
    intros k [<-|[<-|[<-|[]]]]; [exact E0 | exact E1 |]. transitivity (Some (157 / 1000000000 * (1 - 4665 / 100000 * exp (314 / (1793 / 10))))); [reflexivity|]. unfold v, script_curvature. f_equal.
    replace (314 / (1793 / 10)) with (314 / 179.3) by lra. lra.
Qed.
Lemma classify_mode (xi xi' : num RA) p : same_outcome (fun x y => snd x = snd y) (p2p_classify RA xi p) (p2p_classify RA xi' p).
Proof. unfold p2p_classify. apply so_bind_same; intro. apply so_bind_same; intro. cbv zeta. apply so_bind_same; intro. reflexivity. Qed.
Lemma p2p_flat (z z' : list R) p (d h0 h1 c b c' b' : R) : (2 <= length z)%nat -> (2 <= length z')%nat -> pn p DKM = Some d -> 0 < d -> pn p HG0 = Some h0 -> pn p HG1 = Some h1 -> 0 < h0 -> 0 < h1 ->
  straight (script_path d z) c b -> straight (script_path d z') c' b' -> 0 <= b -> 0 <= b' -> within_horizons (script_path d z) h0 h1 script_curvature ->
  same_outcome (fun o o' => out_mode RA o = out_mode RA o' /\ out_fs RA o = out_fs RA o' /\ out_rows RA o = out_rows RA o' /\ (length z = length z' -> out_kind RA o = out_kind RA o'))
    (itmlogic_p2p RA z p) (itmlogic_p2p RA z' p).
Proof.
  intros L L' Ed Pd E0 E1 P0 P1 S S' B B' C. pose proof (prepare_flat z z' p d h0 h1 c b c' b' L L' Ed Pd E0 E1 P0 P1 S S' B B' C) as H. cbv zeta in H. unfold itmlogic_p2p. cbv zeta.
  do 4 (apply so_bind_same; intro). eapply so_bind; [exact H|]. intros p1 q1 (Sm & F & F'). assert (N := same_near [] _ _ Sm).
  rewrite (nr_getn _ _ p1 q1 WN N), (nr_getn _ _ p1 q1 DIST N), (nr_getn _ _ p1 q1 DKM N) by reflexivity. unfold getpfl. rewrite F, F'. cbn [opt_res].
  do 3 (apply so_bind_same; intro). cbn [bind]. rewrite (nr_classify _ _ _ p1 q1 N).
  assert (K : same_outcome (fun x y => snd x = snd y /\ (length z = length z' -> fst x = fst y)) (p2p_classify RA (pf_xi (script_path d z)) p1) (p2p_classify RA (pf_xi (script_path d z')) p1)).
  { eapply so_and; [apply classify_mode|]. intros x y Ex Ey M. split; [exact M|]. intro Q. unfold script_path in Ex, Ey. rewrite <- Q in Ey. cbn [pf_xi] in Ex, Ey. rewrite Ex in Ey. injection Ey as ->. reflexivity. }
  eapply so_bind; [exact K|]. intros [k m] [k' m'] [M Kk]. cbn [fst snd] in *. subst m'. apply so_bind_same. intro. rewrite (nr_table _ [] eq_refl _ _ _ _ p1 q1 N). apply so_bind_same. intro. cbn. auto.
Qed.
