(** p2p.py: the table of losses. *)
From Verif Require Import RTac Frame SpecAvar SpecQuant SpecScripts Scripts PfFrame PfLrGen PfAvarGen PfAvarInc PfAvarApi PfPrepGen PfAvarReal PfMisc.
Open Scope Z_scope.

Section P2P.
Context (A : arith).
Local Open Scope num_scope.

Lemma calls_app xs ys (p q r : prop A) u v : avar_calls A (avar A) xs p = Ok (u, q) -> avar_calls A (avar A) ys q = Ok (v, r) ->
  avar_calls A (avar A) (xs ++ ys) p = Ok (u ++ v, r).
Proof.
  revert p u. induction xs as [|[[t l] c] xs IH]; intros p u H K; cbn [app avar_calls] in *.
  - injection H as <- <-. exact K.
  - apply bind_inv in H as [[a p1] [E H]]. cbn [fst snd] in H. apply bind_inv in H as [[w p2] [E2 H]]. injection H as <- <-.
    rewrite E. cbn [bind]. rewrite (IH p1 w E2 K). reflexivity.
Qed.
Lemma rows_calls d fs qr zr qz (p p' : prop A) rows : p2p_rows A d fs qr zr qz p = Ok (rows, p') ->
  exists vals, avar_calls A (avar A) (map (fun x => (zr, #0, snd x)) qz) p = Ok (vals, p') /\
    rows = map (fun x => (d, qr, fst (fst x), fs + snd x)) (combine qz vals) /\ length vals = length qz.
Proof.
  revert p rows. induction qz as [|[qc zc] qz IH]; intros p rows H; cbn [p2p_rows] in H.
  - injection H as <- <-. exists []. auto.
  - apply bind_inv in H as [[a p1] [E H]]. cbn [fst snd] in H. apply bind_inv in H as [[w p2] [E2 H]]. injection H as <- <-.
    destruct (IH _ _ E2) as (vals & C & -> & L). exists (a :: vals). cbn [map avar_calls snd]. rewrite E. cbn [bind]. rewrite C. cbn [bind]. cbn [combine map fst snd length].
    split; [reflexivity|]. split; [reflexivity | congruence].
Qed.
Definition pairs {S T} (a : list S) (b : list T) : list (S * T) := flat_map (fun x => map (fun y => (x, y)) b) a.
Lemma table_calls d fs qrz qcz (p : prop A) rows : p2p_table A d fs qrz qcz p = Ok rows ->
  exists vals q, avar_calls A (avar A) (map (fun x => (snd (fst x), #0, snd (snd x))) (pairs qrz qcz)) p = Ok (vals, q) /\
    rows = map (fun x => (d, fst (fst (fst x)), fst (snd (fst x)), fs + snd x)) (combine (pairs qrz qcz) vals) /\ length vals = length (pairs qrz qcz).
Proof.
  revert p rows. induction qrz as [|[qr zr] qrz IH]; intros p rows H; cbn [p2p_table] in H.
  - injection H as <-. exists [], p. auto.
  - apply bind_inv in H as [[u p1] [E H]]. cbn [fst snd] in H. apply bind_inv in H as [w [E2 H]]. injection H as <-.
    destruct (rows_calls _ _ _ _ _ _ _ _ E) as (va & C & -> & L). destruct (IH _ _ E2) as (vb & q & D & -> & M). exists (va ++ vb), q.
    cbn [pairs flat_map]. fold (pairs qrz qcz). rewrite map_app, map_map. cbn [fst snd]. split; [eapply calls_app; eassumption|].
    assert (CA : forall (S T : Type) (a b : list S) (x y : list T), length a = length x -> combine (a ++ b) (x ++ y) = combine a x ++ combine b y).
    { clear. intros S T a. induction a as [|s a IH]; intros b [|t x] y L; cbn in *; try discriminate; [reflexivity|]. rewrite IH by congruence. reflexivity. }
    rewrite CA by (rewrite map_length; congruence). rewrite map_app. split.
    + f_equal. clear - L. revert va L. induction qcz as [|[qc zc] l IH]; intros [|v va] L; cbn in *; try discriminate; [reflexivity|]. f_equal. apply IH. congruence.
    + rewrite !app_length, map_length. congruence.
Qed.
Lemma qerfi_list (l : list (num A)) v : qerfi A l = Ok v -> Forall2 (fun q z => qerfi A [q] = Ok [z]) l v.
Proof.
  revert v. induction l as [|q l IH]; intros v H; cbn in H; [injection H as <-; constructor|].
  apply bind_inv in H as [z [E H]]. apply bind_inv in H as [w [E2 H]]. injection H as <-. constructor; [cbn; rewrite E; reflexivity | apply IH; exact E2].
Qed.
Lemma devs (qs : list Z) l v : mapM (fun x : num A => x /? #100) (map n_Z qs) = Ok l -> qerfi A l = Ok v ->
  Forall2 (fun q z => deviate A q z) qs v.
Proof.
  intros M Q. apply qerfi_list in Q. revert l v M Q. induction qs as [|q qs IH]; intros l v M Q; cbn in M.
  - injection M as <-. inversion Q; subst. constructor.
  - apply bind_inv in M as [t [E M]]. apply bind_inv in M as [w [E2 M]]. injection M as <-. inversion Q; subst. constructor; [exists t; auto | eapply IH; eassumption].
Qed.
(** The prepared dictionary. *)
Lemma p2p_prepare_facts z (p q : prop A) : p2p_prepare A z p = Ok q ->
  pn q DKM = pn p DKM /\ pz q LVAR = Some 5%Z /\ pz q MDVAR = Some 11%Z.
Proof.
  unfold p2p_prepare, script_gme. intro H.
  apply bind_inv in H as [d [D H]]. apply bind_inv in H as [f [_ H]]. apply bind_inv in H as [fm [_ H]]. apply bind_inv in H as [wn [_ H]].
  apply bind_inv in H as [p1 [E1 H]]. apply bind_inv in E1 as [t [_ E1]]. apply bind_inv in E1 as [e [_ E1]]. injection E1 as <-.
  apply bind_inv in H as [ip [_ H]]. apply bind_inv in H as [[zr zi] [_ H]]. cbn [fst snd] in H.
  apply qlrpfl_control in H as (lv & mx & kx & L & M & K & _ & L' & M' & _ & F).
  cbn in L, M, K. injection L as <-. injection M as <-. injection K as <-. cbn in L', M'.
  split; [|split; assumption]. rewrite (proj1 F DKM); [reflexivity|]. apply memn_nIn. reflexivity.
Qed.
Lemma p2p_out_rows z (p : prop A) out : itmlogic_p2p A z p = Ok out ->
  exists q d, p2p_prepare A z p = Ok q /\ pn p DKM = Some d /\
    (exists wn dist l, pn q WN = Some wn /\ pn q DIST = Some dist /\ np_log (#2 * wn * dist) = Ok l /\ out_fs A out = 8685890 // 1000000 * l) /\
    Forall2 (fun (rc : Z * Z) row => exists zr zc a q', deviate A (fst rc) zr /\ deviate A (snd rc) zc /\
      avar A zr #0 zc q = Ok (a, q') /\ row = (d, #(fst rc), #(snd rc), out_fs A out + a)) p2p_levels (out_rows A out).
Proof.
  intro H. unfold itmlogic_p2p in H. apply bind_inv in H as [qr [E1 H]]. apply bind_inv in H as [zr [E2 H]]. apply bind_inv in H as [qc [E3 H]]. apply bind_inv in H as [zc [E4 H]].
  apply bind_inv in H as [q [E5 H]]. apply bind_inv in H as [wn [E6 H]]. apply bind_inv in H as [dist [E7 H]]. apply bind_inv in H as [l [E8 H]]. cbv zeta in H.
  apply bind_inv in H as [f [E9 H]]. apply bind_inv in H as [[kd md] [E10 H]]. cbn [fst snd] in H. apply bind_inv in H as [d [E11 H]]. apply bind_inv in H as [rows [E12 H]].
  injection H as <-. destruct (p2p_prepare_facts _ _ _ E5) as (FD & _). exists q, d. split; [exact E5|]. split; [rewrite <- FD; apply pn_getn; exact E11|].
  cbn [out_fs out_rows]. split. { exists wn, dist, l. split; [apply pn_getn; exact E6|]. split; [apply pn_getn; exact E7|]. split; [exact E8 | reflexivity]. }
  set (fs := 8685890 // 1000000 * l) in *. clearbody fs.
  pose proof (devs [1; 10; 50; 90; 99]%Z qr zr E1 E2) as V1. pose proof (devs [50; 90; 10]%Z qc zc E3 E4) as V2.
  destruct (table_calls _ _ _ _ _ _ E12) as (vals & q' & C & -> & Ln).
  apply avar_calls_each in C.
  inversion V1 as [|? z1 ? ? A1 W1]; subst. inversion W1 as [|? z2 ? ? A2 W2]; subst. inversion W2 as [|? z3 ? ? A3 W3]; subst. inversion W3 as [|? z4 ? ? A4 W4]; subst. inversion W4 as [|? z5 ? ? A5 W5]; subst. inversion W5; subst.
  inversion V2 as [|? c1 ? ? B1 Y1]; subst. inversion Y1 as [|? c2 ? ? B2 Y2]; subst. inversion Y2 as [|? c3 ? ? B3 Y3]; subst. inversion Y3; subst. clear V1 W1 W2 W3 W4 W5 V2 Y1 Y2 Y3.
  unfold p2p_qr, p2p_qc in *. cbn [combine pairs flat_map map app fst snd length] in C, Ln |- *.
  repeat (match goal with K : Forall2 _ (_ :: _) _ |- _ => inversion K; clear K; subst end).
  match goal with K : Forall2 _ [] _ |- _ => inversion K; clear K; subst end.
  cbn [combine map fst snd] in *. unfold p2p_levels.
  repeat match goal with K : exists p', avar _ _ _ _ _ = _ |- _ => destruct K as [? K] end.
  repeat (constructor; [match goal with K : avar A ?zr _ ?zc q = Ok (?y, ?x) |- exists _ _ _ _, _ /\ _ /\ _ /\ (d, _, _, fs + ?y) = _ => exists zr, zc, y, x; cbn [fst snd]; auto end|]).
  constructor.
Qed.
End P2P.

Open Scope R_scope.
Lemma deviate_anti r r' (z z' : R) : (r <= r')%Z -> deviate RA r z -> deviate RA r' z' -> z' <= z.
Proof.
  intros L (t & T & Q) (t' & T' & Q'). apply r_div_inv in T as [_ ->]. apply r_div_inv in T' as [_ ->]. apply IZR_le in L. cbn [n_Z RA] in *.
  eapply (qerfi1_anti (IZR r / 100) (IZR r' / 100)); [lra | apply qerfi_one_inv; exact Q | apply qerfi_one_inv; exact Q'].
Qed.
Lemma p2p_ordered (z : list R) (p : prop RA) out (d r c l d' r' c' l' : R) : itmlogic_p2p RA z p = Ok out ->
  In (d, r, c, l) (out_rows RA out) -> In (d', r', c', l') (out_rows RA out) -> r <= r' -> c <= c' -> l <= l'.
Proof.
  intro H. destruct (p2p_out_rows RA z p out H) as (q & d0 & E & _ & _ & F). destruct (p2p_prepare_facts RA z p q E) as (_ & LV & MD).
  intros I I' Rr C.
  assert (G : forall d r c l, In (d, r, c, l) (out_rows RA out) -> exists r0 c0 (zr zc a : R) q', In (r0, c0) p2p_levels /\ r = IZR r0 /\ c = IZR c0 /\ deviate RA r0 zr /\ deviate RA c0 zc /\ avar RA zr 0 zc q = Ok (a, q') /\ l = out_fs RA out + a).
  { clear - F. intros d r c l I. induction F as [|[r0 c0] row ls rows (zr & zc & a & q' & D1 & D2 & E & Er) F IH]; [destruct I|]. destruct I as [I|I].
    - rewrite I in Er. injection Er as -> -> -> ->. exists r0, c0, zr, zc, a, q'. split; [left; reflexivity|]. auto 10.
    - destruct (IH I) as (r1 & c1 & zr1 & zc1 & a1 & q1 & N & O). exists r1, c1, zr1, zc1, a1, q1. split; [right; exact N | exact O]. }
  assert (G' : forall r0 c0, In (r0, c0) p2p_levels -> exists (zr zc a : R) q', deviate RA r0 zr /\ deviate RA c0 zc /\ avar RA zr 0 zc q = Ok (a, q')).
  { clear - F. intros r0 c0 I. induction F as [|[r1 c1] row ls rows (zr & zc & a & q' & D1 & D2 & E & Er) F IH]; [destruct I|]. destruct I as [I|I]; [|apply IH; exact I].
    injection I as -> ->. exists zr, zc, a, q'. auto. }
  destruct (G _ _ _ _ I) as (r0 & c0 & zr & zc & a & q1 & N & -> & -> & D1 & D2 & E1 & ->). destruct (G _ _ _ _ I') as (r1 & c1 & zr' & zc' & a' & q2 & N' & -> & -> & D1' & D2' & E2 & ->).
  apply le_IZR in Rr, C. pose proof (deviate_anti _ _ _ _ Rr D1 D1') as Z1. pose proof (deviate_anti _ _ _ _ C D2 D2') as Z2.
  assert (SS : stat_state q) by (eapply st_full; [exact LV | lia]).
  assert (NM : In (r0, c1) p2p_levels).
  { assert (P : forall x y u v, In (x, y) p2p_levels -> In (u, v) p2p_levels -> In (x, v) p2p_levels); [|eapply P; eassumption]. clear.
    intros x y u v H K. unfold p2p_levels in *. cbn [In] in *.
    assert (X : x = 1%Z \/ x = 10%Z \/ x = 50%Z \/ x = 90%Z \/ x = 99%Z) by (clear K; repeat (destruct H as [H|H]; [injection H; intros; subst; auto 10|]); destruct H).
    assert (V : v = 50%Z \/ v = 90%Z \/ v = 10%Z) by (clear H X; repeat (destruct K as [K|K]; [injection K; intros; subst; auto 10|]); destruct K).
    clear H K. destruct X as [->|[->|[->|[->| ->]]]], V as [->|[->| ->]]; auto 20. }
  destruct (G' _ _ NM) as (zr0 & zc0 & am & qm & M1 & M2 & Em).
  assert (zr0 = zr) as -> by (apply Rle_antisym; [eapply (deviate_anti r0 r0); eauto; lia | eapply (deviate_anti r0 r0); eauto; lia]).
  assert (zc0 = zc') as -> by (apply Rle_antisym; [eapply (deviate_anti c1 c1); eauto; lia | eapply (deviate_anti c1 c1); eauto; lia]).
  pose proof (C23_conf zr 0 zc' zc am a q qm q1 SS Em E1 Z2) as Y1.
  assert (K : pz q2 KDV = Some 1%Z). { pose proof (avar_mode_api RA _ _ _ _ _ _ 5 11 E2 LV ltac:(lia) MD) as (_ & _ & _ & _ & M). exact M. }
  pose proof (C24_time zr' zr 0 zc' a' am q q2 qm 1%Z SS E2 Em K ltac:(lia) Z1) as Y2.
  lra.
Qed.
