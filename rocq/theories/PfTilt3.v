(** qlrpfl and the scripts over terrain raised or tilted as a whole. *)
From Coq Require Import Lra Lia.
From Verif Require Import RTac Frame SpecTilt Stats Prep Scripts PfFrame PfRegime PfLrGen PfHzns PfLsq PfPfl PfAvarReal PfReverse4 PfMode PfTilt PfTilt2.
From Coq Require Classical_Prop.
Open Scope R_scope.
Implicit Types p q : prop RA.

Lemma so_and {T T'} (P Q : T -> T' -> Prop) m m' : same_outcome P m m' -> (forall x y, m = Ok x -> m' = Ok y -> P x y -> Q x y) -> same_outcome Q m m'.
Proof. destruct m, m'; cbn; auto. Qed.
Lemma steep_zero X p q : turned_by 0 X p q -> steep_alike p q.
Proof.
  intros N a b a' b' A B A' B'. rewrite (tb_0 _ _ _ _ N), A in A'. rewrite (tb_1 _ _ _ _ N), B in B'. cbn in A', B'. injection A' as <-. injection B' as <-. rewrite Rplus_0_r, Rminus_0_r. tauto.
Qed.
Lemma nr_weaken s X Y p q : (forall k, In k X -> In k Y) -> turned_by s X p q -> turned_by s Y p q.
Proof. intros I [N T0 T1 Z B K]. constructor; auto. Qed.
Definition far_ok (X : list zkey) : Prop := forallb (fun k => negb (memz k X)) [MDP; LVAR; MDVARX; KLIMX; KLIM; MDVAR; KDV] = true.
Lemma far_no X k : far_ok X -> In k [MDP; LVAR; MDVARX; KLIMX; KLIM; MDVAR; KDV] -> memz k X = false.
Proof. unfold far_ok. intros H I. rewrite forallb_forall in H. apply H in I. destruct (memz k X); [discriminate | reflexivity]. Qed.
Ltac far := apply far_no; [assumption | cbn; tauto].
(** qlrpfl *)
Lemma qlrpfl_turn s0 X p q f v a b : far_ok X -> path_entries p f v -> lined s0 X a b f p q -> (b = 0 \/ (In KWX X /\ obstructed f (v HG0) (v HG1) (v GME))) ->
  same_outcome (lined (b / (pf_xi f : R)) X a b f) (qlrpfl RA p) (qlrpfl RA q).
Proof.
  intros FO P L C. assert (C' : b = 0 \/ obstructed f (v HG0) (v HG1) (v GME)) by tauto. destruct (geom_turn s0 p q f v a b X P L C') as (p1 & q1 & E1 & F1 & N1).
  destruct L as (_ & Pp & Pq).
  apply so_and with (P := turned_by (b / (pf_xi f : R)) X).
  - unfold qlrpfl. rewrite E1, F1. cbn [bind]. eapply so_bind; [apply nr_control; [exact N1 | far..]|]. intros p2 q2 N2. apply nr_lrprop; [exact N2 | far|].
    destruct C as [->|[C _]]; [|left; exact C]. right. apply (steep_zero X). replace (0 / (pf_xi f : R)) with 0 in N2 by (unfold Rdiv; ring). exact N2.
  - intros p' q' Ep Eq N. split; [exact N|]. apply qlrpfl_frame in Ep. apply qlrpfl_frame in Eq. destruct Ep as (_ & _ & _ & Fp), Eq as (_ & _ & _ & Fq). split; congruence.
Qed.
Lemma qlrpfl_turn_kwx s0 p q f v a b : path_entries p f v -> lined s0 [] a b f p q -> obstructed f (v HG0) (v HG1) (v GME) ->
  same_outcome (fun p' q' => turned_by (b / (pf_xi f : R)) [KWX] p' q' /\ (gentle p' -> gentle q' -> pz q' KWX = pz p' KWX)) (qlrpfl RA p) (qlrpfl RA q).
Proof.
  intros P L C. destruct (geom_turn s0 p q f v a b [] P L (or_intror C)) as (p1 & q1 & E1 & F1 & N1).
  assert (L' : lined s0 [KWX] a b f p q). { destruct L as (A & B & D). split; [|auto]. eapply nr_weaken; [|exact A]. intros k []. }
  pose proof (qlrpfl_turn s0 [KWX] p q f v a b eq_refl P L' (or_intror (conj (or_introl eq_refl) C))) as T.
  destruct (Classical_Prop.classic (steep_alike p1 q1)) as [SA|SA].
  - assert (T' : same_outcome (turned_by (b / (pf_xi f : R)) []) (qlrpfl RA p) (qlrpfl RA q)).
    { unfold qlrpfl. rewrite E1, F1. cbn [bind]. pose proof (prep_control_frame RA (-1) p1) as Fa. pose proof (prep_control_frame RA (-1) q1) as Fb.
      pose proof (nr_control _ [] (-1) p1 q1 N1 eq_refl eq_refl eq_refl) as NC. destruct (prep_control RA (-1) p1) as [p2|], (prep_control RA (-1) q1) as [q2|]; cbn [same_outcome bind] in *; try contradiction; [|exact NC]. specialize (Fa _ eq_refl). specialize (Fb _ eq_refl).
      apply nr_lrprop; [exact NC | reflexivity|]. right. intros x y x' y'. rewrite (proj1 Fa THE0), (proj1 Fa THE1), (proj1 Fb THE0), (proj1 Fb THE1) by (cbn; tauto). apply SA. }
    destruct (qlrpfl RA p), (qlrpfl RA q); cbn [same_outcome] in *; try contradiction; [|exact T]. split; [exact (proj1 T)|]. intros _ _. apply (tb_z _ _ _ _ T'). intros [].
  - refine (so_and _ _ _ _ T _). intros p' q' Ep Eq (N & _). split; [exact N|]. intros Gp Gq. exfalso. apply SA.
    assert (K : forall r r' k, In k [THE0; THE1] -> qlrpfl_geom RA r = Ok r' -> forall r2, qlrpfl RA r = Ok r2 -> pn r2 k = pn r' k).
    { clear. intros r r' k I E r2 H. unfold qlrpfl in H. rewrite E in H. cbn [bind] in H. apply bind_inv in H as (r1 & E1 & H). apply prep_control_frame in E1. apply lrprop_frame in H.
      rewrite (proj1 H), (proj1 E1); [reflexivity | cbn; tauto |]. destruct I as [<-|[<-|[]]]; cbn; intuition discriminate. }
    intros x y x' y' A B A' B'.
    assert (G1 : Rabs x <= 2 / 10) by (apply Gp; left; rewrite (K _ _ THE0 ltac:(cbn; tauto) E1 _ Ep); exact A).
    assert (G2 : Rabs y <= 2 / 10) by (apply Gp; right; rewrite (K _ _ THE1 ltac:(cbn; tauto) E1 _ Ep); exact B).
    assert (G3 : Rabs x' <= 2 / 10) by (apply Gq; left; rewrite (K _ _ THE0 ltac:(cbn; tauto) F1 _ Eq); exact A').
    assert (G4 : Rabs y' <= 2 / 10) by (apply Gq; right; rewrite (K _ _ THE1 ltac:(cbn; tauto) F1 _ Eq); exact B').
    split; split; lra.
Qed.

(** ** Scripts *)
Section Scripts.
Context (s : R) (X : list zkey) (FO : far_ok X).
Notation near := (turned_by s X).
Lemma nr_rows (d fs qr zr : num RA) qz p q : near p q -> same_outcome (fun x y => fst y = fst x /\ near (snd x) (snd y)) (p2p_rows RA d fs qr zr qz p) (p2p_rows RA d fs qr zr qz q).
Proof.
  revert p q. induction qz as [|[qc zc] l IH]; intros p q N; cbn [p2p_rows]; [cbn; auto|].
  eapply so_bind; [apply nr_avar; [exact N | far..]|]. intros [x p1] [x' q1] [E N1]. cbn [fst snd] in *. subst x'. eapply so_bind; [apply IH; exact N1|].
  intros [rs p2] [rs' q2] [E N2]. cbn [fst snd] in *. subst rs'. cbn. auto.
Qed.
Lemma nr_table (d fs : num RA) qrz qcz p q : near p q -> p2p_table RA d fs qrz qcz q = p2p_table RA d fs qrz qcz p.
Proof.
  revert p q. induction qrz as [|[qr zr] l IH]; intros p q N; cbn [p2p_table]; [reflexivity|].
  pose proof (nr_rows d fs qr zr qcz p q N) as H. destruct (p2p_rows RA d fs qr zr qcz p) as [[rs p1]|], (p2p_rows RA d fs qr zr qcz q) as [[rs' q1]|]; cbn [same_outcome fst snd] in H; try contradiction.
  - destruct H as [-> N1]. cbn [bind]. rewrite (IH _ _ N1). reflexivity.
  - subst e. reflexivity.
Qed.
Lemma nr_classify (xi : num RA) p q : near p q -> p2p_classify RA xi q = p2p_classify RA xi p.
Proof. intro N. unfold p2p_classify. rewrite (nr_getn s X p q DIST N), (nr_getn s X p q DLSA N), (nr_getn s X p q DX N) by reflexivity. reflexivity. Qed.
End Scripts.
Lemma map_inclined c (z : list R) : map (fun x => x + c) z = inclined c 0 z.
Proof.
  unfold inclined. apply nth_ext with (d := 0) (d' := 0); rewrite !map_length, ?seq_length; [reflexivity|]. intros n H.
  rewrite (nth_indep _ 0 (0 + c)) by (rewrite map_length; exact H). rewrite (map_nth (fun x => x + c)).
  rewrite (nth_indep (map _ (seq _ _)) 0 ((fun k => nth k z 0 + (c + 0 * INR k)) 0%nat)) by (rewrite map_length, seq_length; exact H). rewrite (map_nth (fun k => nth k z 0 + (c + 0 * INR k))).
  rewrite seq_nth by exact H. cbn [Nat.add]. ring.
Qed.
Lemma path_inclined d a b z : script_path d (inclined a b z) = add_line (script_path d z) a b.
Proof. unfold script_path, add_line, inclined. cbn [pf_np pf_xi pf_z]. rewrite map_length, seq_length. reflexivity. Qed.
Lemma script_wf d z : 0 < d -> (2 <= length z)%nat -> well_formed (script_path d z).
Proof.
  intros P L. unfold well_formed, script_path. cbn [pf_np pf_xi pf_z]. change (num RA) with R. split; [lia|]. split; [|lia]. apply Rdiv_lt_0_compat; [lra | apply IZR_lt; lia].
Qed.
Lemma profile_run (d : R) z : 0 < d -> (2 <= length z)%nat -> p2p_profile RA d z = Ok (script_path d z).
Proof.
  intros P L. unfold p2p_profile. cbv zeta. change (num RA) with R in *. destruct (Z.eqb_spec (Z.of_nat (length z) - 1) 0); [lia|]. runfold. destruct (r_leb d 0) eqn:B; rbool; [lra|].
  rewrite r_div_ok by (apply not_0_IZR; lia). reflexivity.
Qed.
Lemma prepare_turn (z : list R) p (d h0 h1 a b : R) : (2 <= length z)%nat -> pn p DKM = Some d -> 0 < d -> pn p HG0 = Some h0 -> pn p HG1 = Some h1 -> 0 < h0 -> 0 < h1 ->
  let f := script_path d z in (b = 0 \/ obstructed f h0 h1 script_curvature) ->
  same_outcome (lined (b / (pf_xi f : R)) [KWX] a b f) (p2p_prepare RA z p) (p2p_prepare RA (inclined a b z) p).
Proof.
  intros L Ed Pd E0 E1 P0 P1 f C. unfold p2p_prepare. cbv zeta. dsimp.
  assert (G : getn p DKM = Ok d) by (apply pn_getn; exact Ed). rewrite G. cbn [bind].
  rewrite (profile_run d z Pd L : p2p_profile RA d z = _). rewrite (profile_run d (inclined a b z) Pd ltac:(unfold inclined; rewrite map_length, seq_length; exact L) : p2p_profile RA d (inclined a b z) = _). rewrite path_inclined. fold f. cbn [bind]. dsimp.
  apply so_bind_same. intro fm. apply so_bind_same. intro wn.
  unfold script_gme. cbv zeta. runfold. rewrite r_div_ok by lra. cbn [bind]. dsimp. apply so_bind_same. intro ip. apply so_bind_same. intros [zr zi].
  set (v := fun k => match k with HG0 => h0 | HG1 => h1 | _ => script_curvature end).
  apply (qlrpfl_turn 0 [KWX]) with (v := v); [reflexivity | | | destruct C as [C|C]; [left; exact C | right; split; [left; reflexivity | exact C]]].
  - split; [reflexivity|]. split; [apply script_wf; assumption|]. split; [|cbn; split; [exact P0|split; [exact P1 | exact curvature_pos]]].
    intros k [<-|[<-|[<-|[]]]]; [exact E0 | exact E1 |]. transitivity (Some (157 / 1000000000 * (1 - 4665 / 100000 * exp (314 / (1793 / 10))))); [reflexivity|]. unfold v, script_curvature. f_equal.
    replace (314 / (1793 / 10)) with (314 / 179.3) by lra. lra.
  - split; [|split; reflexivity]. apply same_near. repeat split; reflexivity.
Qed.
Lemma p2p_turn (z : list R) p (d h0 h1 a b : R) : (2 <= length z)%nat -> pn p DKM = Some d -> 0 < d -> pn p HG0 = Some h0 -> pn p HG1 = Some h1 -> 0 < h0 -> 0 < h1 ->
  (b = 0 \/ obstructed (script_path d z) h0 h1 script_curvature) -> itmlogic_p2p RA (inclined a b z) p = itmlogic_p2p RA z p.
Proof.
  intros L Ed Pd E0 E1 P0 P1 C. pose proof (prepare_turn z p d h0 h1 a b L Ed Pd E0 E1 P0 P1 C) as H. cbv zeta in H. unfold itmlogic_p2p. cbv zeta.
  do 4 match goal with |- bind ?m _ = _ => destruct m; [|reflexivity]; cbn [bind] end.
  destruct (p2p_prepare RA z p) as [p1|e], (p2p_prepare RA (inclined a b z) p) as [q1|e']; cbn [same_outcome] in H; try contradiction; [|subst; reflexivity]. destruct H as (N & F & G). cbn [bind].
  rewrite (nr_getn _ _ p1 q1 WN N), (nr_getn _ _ p1 q1 DIST N), (nr_getn _ _ p1 q1 DKM N) by reflexivity. unfold getpfl. rewrite F, G. cbn [opt_res bind].
  do 3 match goal with |- bind ?m _ = _ => destruct m; [|reflexivity]; cbn [bind] end.
  change (pf_xi (add_line (script_path d z) a b)) with (pf_xi (script_path d z)). rewrite (nr_classify _ _ _ p1 q1 N). destruct (p2p_classify RA _ p1) as [[k m]|]; [|reflexivity]. cbn [bind].
  destruct (getn p1 DKM); [|reflexivity]. cbn [bind]. rewrite (nr_table _ [KWX] eq_refl _ _ _ _ p1 q1 N). reflexivity.
Qed.

(** pimter.py *)
Lemma pimter_loop_turn s X a b f (fm ZR ZC : num RA) (g h0 : R) l : far_ok X -> well_formed f -> 0 < g -> 0 < h0 -> (forall h : R, In h l -> 0 < h) ->
  (b = 0 \/ (In KWX X /\ forall h : R, In h l -> obstructed f h0 h g)) -> forall p q, lined s X a b f p q -> pn p GME = Some g -> pn p HG0 = Some h0 ->
  pimter_loop RA fm ZR ZC l q = pimter_loop RA fm ZR ZC l p.
Proof.
  intros FO W G0 H0. revert s. induction l as [|h l IH]; intros s HL C p q N Ge He; cbn [pimter_loop]; [reflexivity|]. cbv zeta.
  set (p0 := setz (setz (setz (setz (setn p HG1 h) LVAR 5) KWX 0) KLIMX 0) MDVARX 11). set (q0 := setz (setz (setz (setz (setn q HG1 h) LVAR 5) KWX 0) KLIMX 0) MDVARX 11).
  assert (N0 : lined s X a b f p0 q0). { destruct N as (N & A & B). split; [|split; [exact A | exact B]]. unfold p0, q0. repeat apply nr_setz. apply nr_setn; [exact N | reflexivity]. }
  set (v := fun k => match k with HG0 => h0 | HG1 => h | _ => g end).
  assert (P0 : path_entries p0 f v).
  { split; [exact (proj1 (proj2 N))|]. split; [exact W|]. split; [|cbn; split; [exact H0|split; [apply HL; left; reflexivity | exact G0]]]. intros k [<-|[<-|[<-|[]]]]; [exact He | reflexivity | exact Ge]. }
  assert (C0 : b = 0 \/ (In KWX X /\ obstructed f (v HG0) (v HG1) (v GME))). { destruct C as [C|[C D]]; [left; exact C | right; split; [exact C | apply D; left; reflexivity]]. }
  pose proof (qlrpfl_turn s X p0 q0 f v a b FO P0 N0 C0) as T.
  destruct (qlrpfl RA p0) as [p1|] eqn:E1, (qlrpfl RA q0) as [q1|]; cbn [same_outcome] in T; try contradiction; [|subst; reflexivity]. cbn [bind]. destruct T as (T & Tp & Tq).
  rewrite (nr_getn _ _ p1 q1 WN T), (nr_getn _ _ p1 q1 DIST T) by reflexivity. do 3 match goal with |- bind ?m _ = _ => destruct m; [|reflexivity]; cbn [bind] end.
  match goal with |- context [avar RA ?x ?y ?z p1] => assert (V := nr_avar _ X x y z p1 q1 T ltac:(far) ltac:(far) ltac:(far) ltac:(far)); pose proof (avar_frame RA x y z p1) as Fp; pose proof (avar_frame RA x y z q1) as Fq;
    destruct (avar RA x y z p1) as [[l1 p2]|], (avar RA x y z q1) as [[l2 q2]|] end; cbn [same_outcome] in V; try contradiction; [|subst; reflexivity]. destruct V as [V1 V2]. cbn [fst snd] in V1, V2. subst l2.
  specialize (Fp _ eq_refl). specialize (Fq _ eq_refl). cbn [snd] in Fp, Fq. cbn [bind].
  apply qlrpfl_frame in E1.
  rewrite (IH (b / (pf_xi f : R))) with (p := p2).
  - reflexivity.
  - intros x I. apply HL. right. exact I.
  - destruct C as [C|[C D]]; [left; exact C | right; split; [exact C|]]. intros x I. apply D. right. exact I.
  - split; [exact V2|]. destruct Fp as (_ & _ & _ & Fp), Fq as (_ & _ & _ & Fq). split; congruence.
  - rewrite (proj1 Fp) by (cbn; intuition discriminate). rewrite (proj1 E1) by (cbn; intuition discriminate). exact Ge.
  - rewrite (proj1 Fp) by (cbn; intuition discriminate). rewrite (proj1 E1) by (cbn; intuition discriminate). exact He.
Qed.
Lemma pyget_at {T} (l : list T) (i : nat) x : nth_error l i = Some x -> pyget l (Z.of_nat i) = Ok x.
Proof.
  intro H. assert (i < length l)%nat by (apply nth_error_Some; congruence). unfold pyget. destruct (Z.ltb_spec (Z.of_nat i) 0); [lia|]. destruct (Z.ltb_spec (Z.of_nat i) 0); [lia|]. cbn [orb].
  destruct (Z.leb_spec (Z.of_nat (length l)) (Z.of_nat i)); [lia|]. rewrite Nat2Z.id, H. reflexivity.
Qed.
Lemma pimter_turn (z dist : list R) (d0 d1 a b : R) : length z = length dist -> nth_error dist 0 = Some d0 -> nth_error dist 1 = Some d1 -> d0 < d1 ->
  (b = 0 \/ forall k, (10 <= k <= 130)%nat -> obstructed (walked_path dist z) 2.56 (INR k) script_curvature) ->
  run_itmlogic RA (inclined a b z) dist = run_itmlogic RA z dist.
Proof.
  intros L E0 E1 D C. unfold run_itmlogic. destruct (pimter_dev RA); [|reflexivity]. cbn [bind].
  unfold pimter_prepare. cbv zeta. unfold script_gme. cbv zeta. runfold. rewrite r_div_ok by lra. cbn [bind]. dsimp.
  change (num RA) with R in *. rewrite (pyget_at dist 1 d1 E1 : pyget dist 1 = _), (pyget_at dist 0 d0 E0 : pyget dist 0 = _). cbn [bind].
  destruct (pyget dist (-1)); [|reflexivity]. cbn [bind]. rewrite !r_div_ok by lra. cbn [bind].
  destruct (p2p_zgnd RA _ _ _ _) as [[zr zi]|]; [|reflexivity]. cbn [bind].
  assert (L2 : (2 <= length dist)%nat). { assert (1 < length dist)%nat by (apply nth_error_Some; congruence). lia. }
  set (f := @Profile RA (Z.of_nat (length dist) - 1) (d1 - d0)%R z).
  assert (W : well_formed f). { unfold well_formed, f. cbn [pf_np pf_xi pf_z]. change (num RA) with R. split; [lia|]. split; [lra | lia]. }
  assert (Ef : f = walked_path dist z). { unfold f, walked_path. do 2 f_equal; symmetry; apply nth_error_nth; assumption. }
  eapply (pimter_loop_turn 0 [KWX] a b f _ _ _ script_curvature 2.56); [reflexivity | exact W | exact curvature_pos | lra | | | | |].
  - intros h I. apply in_map_iff in I as (k & <- & I). apply in_seq in I. cbn [n_Z RA]. apply IZR_lt. lia.
  - destruct C as [C|C]; [left; exact C|right; split; [left; reflexivity|]]. intros h I. apply in_map_iff in I as (k & <- & I). apply in_seq in I. cbn [n_Z RA]. rewrite <- INR_IZR_INZ, Ef. apply C. lia.
  - split; [|split; [reflexivity|]]; [|unfold add_line, inclined; cbn; rewrite L; reflexivity]. apply same_near. repeat split; reflexivity.
  - transitivity (Some (157 / 1000000000 * (1 - 4665 / 100000 * exp (314 / (1793 / 10))))); [reflexivity|]. unfold script_curvature. f_equal.
    replace (314 / (1793 / 10)) with (314 / 179.3) by lra. lra.
  - transitivity (Some (256 / 100)); [reflexivity|]. f_equal; try lra.
Qed.
