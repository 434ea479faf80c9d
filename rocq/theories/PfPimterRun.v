(** pimter.py returns its table, or not; exactly when. *)
From Coq Require Import Lra Lia.
From Verif Require Import RInst Frame RTac SpecLr SpecQuant PfFrame PfLrGen PfPrepGen PfRegime PfAtten PfAvarReal PfStats PfSetup PfRealRun PfHzns PfDlthx PfTerminal PfPfl SpecTotal PfTotal PfTotal2 PfTotal3 PfTotal4 PfTotal6 PfMode PfMisc PfAreaRun PfAreaRun2 PfAreaRun4 SpecPathRun PfPathRun PfPathRun2 PfPathRun3 PfReverse4 SpecPimter PfTilt3 PfPimter Scripts Prep Stats LrProp Dict Arith.
Open Scope R_scope.

Definition step_ready (q : prop RA) (f : profile RA) (w : nkey -> R) : Prop :=
  ppfl q = Some f /\ values q [WN; GME; ENS; HG0; HG1; ZGR; ZGI] w /\
  pz q LVAR = Some 5%Z /\ (exists kl, pz q KLIM = Some kl) /\ pz q KWX = Some 0%Z /\ pz q KLIMX = Some 0%Z /\ pz q MDVARX = Some 11%Z.

(** One call of qlrpfl on a path. *)
Lemma step_exact (f : profile RA) (w : nkey -> R) : well_formed f -> 0 < w WN -> 0 < w GME -> 0 < w HG0 -> 0 < w HG1 -> 0 < w ZGR -> w ZGI <> 0 ->
  let x := path_length f in exists v, (forall k, In k [WN; GME; ENS; HG0; HG1; ZGR; ZGI] -> v k = w k) /\
  (forall q, path_entries q f v -> exists r, qlrpfl_geom RA q = Ok r /\ values r [DH; HE0; HE1; DL0; DL1; THE0; THE1] v) /\ reference_params v true /\ physical v /\
  (x <= 200000 -> scatters v x) /\ (ground_ok v -> curve_ok v) /\
  forall q0, step_ready q0 f w ->
  (~ curve_ok v -> qlrpfl RA q0 = Err NotReal) /\
  (curve_ok v -> scatters v x -> divides_by_zero v x -> qlrpfl RA q0 = Err ZeroDivisionError) /\
  (flyable v x -> exists q, qlrpfl RA q0 = Ok q /\ ongoing_at v (-1) q /\ stat_on q /\ pn q DIST = Some x).
Proof.
  intros W WP G P0 P1 Z1 Z2 x. set (h0 := w HG0) in *. set (h1 := w HG1) in *. assert (W0 : w HG0 = h0) by reflexivity. assert (W1 : w HG1 = h1) by reflexivity.
  assert (XP : 0 < x) by (apply len_pos; exact W).
  destruct (terrain_exist f h0 h1 (w GME) W P0 P1 G) as (u & GEO & DH0 & HH0 & HH1 & LL0 & LL1 & AN). fold x in AN, GEO.
  set (w' := fun k => if memn k terrain_keys then u k else w k).
  destruct (reference_exists w' true) as (v & VI & RP).
  assert (VW : forall k, In k [WN; GME; ENS; HG0; HG1; ZGR; ZGI] -> v k = w k).
  { intros k I. rewrite VI by (cbn in I |- *; tauto). cbn in I. repeat (destruct I as [<-|I]; [reflexivity|]). destruct I. }
  assert (VU : forall k, In k terrain_keys -> v k = u k).
  { intros k I. rewrite VI by (cbn in I |- *; tauto). cbn in I. repeat (destruct I as [<-|I]; [reflexivity|]). destruct I. }
  assert (PH : physical v).
  { unfold physical. rewrite (VW WN), (VW GME), (VW HG0), (VW HG1), (VW ZGR), (VU DH), (VU HE0), (VU HE1), (VU DL0), (VU DL1) by inks. rewrite W0, W1. repeat split; lra. }
  assert (RF : forall d, 0 < d -> reflects v d) by (intros; left; rewrite VW by inks; exact Z2).
  assert (GP := RP). destruct GP as (GP & DP & LP). assert (PH' := PH). destruct PH' as (WPv & GPv & _ & _ & _ & HE0p & HE1p & L0 & L1 & _).
  assert (GP' := GP). destruct GP' as (g1 & g2 & g3 & g4 & _). assert (LA : 0 < v DLA) by (rewrite g4; lra).
  assert (F0 : 0 < fit_d0 v) by (apply d0_pos; assumption). assert (F1 : 0 < fit_d1 v) by (apply d1_pos; assumption).
  exists v. split; [exact VW|]. split.
  { intros q E. destruct (GEO v q ltac:(rewrite VW by inks; exact W0) ltac:(rewrite VW by inks; exact W1) ltac:(apply VW; inks) E) as (r & Er & Vr & _). exists r. split; [exact Er|].
    intros k I. rewrite VU by exact I. apply Vr. exact I. }
  split; [exact RP|]. split; [exact PH|]. split.
  { intros D2 L. unfold scat_angle, scat_d5. rewrite g4, (VU THE0), (VU THE1), (VU DL0), (VU DL1), (VW GME) by inks. apply AN; [|lra]. rewrite g3, g1, g2 in L. rewrite (VU HE0), (VU HE1), (VW GME) in L by inks. exact L. }
  split; [apply (ground_curve v true); assumption|].
  (* the run *)
  intros q0 (Rf & Rv & RL & (kl & RK) & RW & RX & RM).
  destruct (GEO w q0 W0 W1 eq_refl) as (q1 & E1 & V1 & D1).
  { split; [exact Rf|]. split; [exact W|]. split; [intros k I; apply Rv; cbn in I |- *; tauto|]. rewrite W0, W1. auto. }
  assert (F1' := qlrpfl_geom_frame RA q0 q1 E1). cbn beta in F1'.
  destruct (control_total q1 (-1) 5 11 0) as [q2 E2]; [rewrite (fr_pz _ _ _ _ _ _ F1') by reflexivity; assumption..|].
  destruct (prep_control_spec RA (-1) q1 q2 E2) as (lv & mx & kx & X1 & X2 & X3 & M2 & L2 & MV2 & K2 & F2).
  rewrite (fr_pz _ _ _ _ _ LVAR F1') in X1 by reflexivity. rewrite (fr_pz _ _ _ _ _ MDVARX F1') in X2 by reflexivity. rewrite (fr_pz _ _ _ _ _ KLIMX F1') in X3 by reflexivity. assert (lv = 5%Z) by congruence. assert (mx = 11%Z) by congruence. assert (kx = 0%Z) by congruence. subst lv mx kx. cbn in L2, MV2, K2.
  assert (KL2 : pz q2 KLIM = Some kl) by (rewrite K2, (fr_pz _ _ _ _ _ _ F1') by reflexivity; exact RK).
  assert (KW2 : pz q2 KWX = Some 0%Z) by (rewrite (fr_pz _ _ _ _ _ _ F2), (fr_pz _ _ _ _ _ _ F1') by reflexivity; exact RW).
  assert (D2 : pn q2 DIST = Some x) by (rewrite (fr_pn _ _ _ _ _ _ F2) by reflexivity; exact D1).
  assert (V2 : values q2 (ENS :: setup_inputs) v).
  { intros k I. rewrite (fr_pn _ _ _ _ _ _ F2) by reflexivity. cbn in I. repeat (destruct I as [<-|I]; [first
      [solve [rewrite VU by inks; apply V1; inks] | solve [rewrite VW by inks; rewrite (fr_pn _ _ _ _ _ _ F1') by reflexivity; apply Rv; inks]]|]). destruct I. }
  assert (S2 : stat_on q2) by (split; [eapply st_full; [exact L2 | lia] | exists 5%Z, kl, 11%Z; auto]).
  assert (EQ : qlrpfl RA q0 = lrprop RA 0 q2) by (unfold qlrpfl; rewrite E1; cbn [bind]; rewrite E2; reflexivity).
  rewrite EQ. destruct (setup_exact v true PH RP q2 (-1) 0 V2 M2 eq_refl KW2) as [_ BAD].
  split.
  { intro N. specialize (BAD N). unfold lrprop. cbn [RA n_div n_Z]. rewrite r_div_ok by lra. cbn [bind]. rewrite (proj2 (pz_getz RA q2 MDP _) M2). cbn [bind]. change (negb (-1 =? 0)%Z) with true. cbv iota.
    change (num RA) with R in *. rewrite BAD. reflexivity. }
  assert (MAIN : curve_ok v -> scatters v x ->
    (runs_at v x /\ exists q, lrprop RA 0 q2 = Ok q /\ mid_calls v q /\ pz q MDP = Some (-1)%Z /\ (exists a, pn q AREF = Some a) /\ pn q DIST = Some x /\ (v DLSA <= x -> exists y, pn q DX = Some y)) \/
    (~ runs_at v x /\ lrprop RA 0 q2 = Err ZeroDivisionError)).
  { intros CO SC. destruct (setup_core_exact v true PH RP q2 (-1) 0 V2 M2 eq_refl KW2 CO) as (q3 & E3 & C3 & M3 & W3 & D3). assert (FS := setup_flag q2 q3 E3).
    rewrite (lrprop_setup_rest 0 q2 q3 (-1) M2 ltac:(lia) E3).
    assert (MC : mid_calls v q3) by (split; [exact C3|]; split; intro; congruence).
    assert (DD : if (0 <=? -1)%Z then x = 0 else pn q3 DIST = Some x) by (cbn; rewrite D3; exact D2).
    exact (rest_exact_at v true PH RP RF 0 q3 (-1)%Z x MC M3 DD XP SC (or_introl W3)). }
  split.
  { intros CO SC DZ. destruct (MAIN CO SC) as [[R _]|[_ E]]; [exfalso; exact (proj1 (runs_iff_at v _ RF F0 F1 SC) R DZ)|]. exact E. }
  intros (CO & SC & DZ). destruct (MAIN CO SC) as [(_ & q & E & C & M & AR & D & DX_)|[R _]]; [|exfalso; apply R, (runs_iff_at v _ RF F0 F1 SC); exact DZ].
  exists q. split; [exact E|]. split; [split; [exact C | split; assumption]|]. split; [exact (stat_lrprop _ _ _ E S2) | exact D].
Qed.
Lemma finite_choice {T} (P : nat -> T -> Prop) (d : T) l : (forall k, In k l -> exists v, P k v) -> exists g, forall k, In k l -> P k (g k).
Proof.
  induction l as [|k l IH]; intro H; [exists (fun _ => d); intros k []|]. destruct IH as [g G]; [intros j J; apply H; right; exact J|].
  destruct (H k (or_introl eq_refl)) as [v V]. exists (fun j => if Nat.eqb j k then v else g j). intros j J. destruct (Nat.eqb_spec j k) as [->|N]; [exact V|]. destruct J as [->|J]; [congruence|]. apply G. exact J.
Qed.
Definition at_height (w : nkey -> R) (h : R) : nkey -> R := fun k => match k with HG1 => h | _ => w k end.
Definition loop_ready (p : prop RA) (f : profile RA) (w : nkey -> R) : Prop :=
  ppfl p = Some f /\ values p [WN; GME; ENS; HG0; ZGR; ZGI] w /\ exists kl, pz p KLIM = Some kl.
Definition step_run (f : profile RA) (w : nkey -> R) (h : R) (v : nkey -> R) : Prop := let x := path_length f in
  physical v /\ v WN = w WN /\ forall q0, step_ready q0 f (at_height w h) ->
  (~ curve_ok v -> qlrpfl RA q0 = Err NotReal) /\
  (curve_ok v -> scatters v x -> divides_by_zero v x -> qlrpfl RA q0 = Err ZeroDivisionError) /\
  (flyable v x -> exists q, qlrpfl RA q0 = Ok q /\ ongoing_at v (-1) q /\ stat_on q /\ pn q DIST = Some x).

Lemma loop_exact (f : profile RA) (w : nkey -> R) (fm zr zc : R) (g : nat -> nkey -> R) : 0 < path_length f -> 0 < w WN ->
  forall ks p, (forall k, In k ks -> step_run f w (IZR (Z.of_nat k)) (g k)) -> loop_ready p f w -> let x := path_length f in
  ((forall k, In k ks -> flyable (g k) x) -> exists rows, pimter_loop RA fm zr zc (map (fun k => IZR (Z.of_nat k)) ks) p = Ok rows /\
     map (fun r : R * R * R * R => let '(a, b, c, _) := r in (a, b, c)) rows = map (fun k => (fm, IZR (Z.of_nat k), 50)) ks) /\
  (forall before k after, ks = before ++ k :: after -> (forall j, In j before -> flyable (g j) x) ->
     (~ curve_ok (g k) -> pimter_loop RA fm zr zc (map (fun k => IZR (Z.of_nat k)) ks) p = Err NotReal) /\
     (curve_ok (g k) -> scatters (g k) x -> divides_by_zero (g k) x -> pimter_loop RA fm zr zc (map (fun k => IZR (Z.of_nat k)) ks) p = Err ZeroDivisionError)).
Proof.
  intros XP WP. induction ks as [|h ks IH]; intros p H L x.
  { split; [intros _; exists []; split; reflexivity | intros [|] ? ? E; discriminate E]. }
  cbn [map pimter_loop]. cbv zeta. set (q0 := setz (setz (setz (setz (setn p HG1 (IZR (Z.of_nat h))) LVAR 5) KWX 0) KLIMX 0) MDVARX 11).
  assert (Q : step_ready q0 f (at_height w (IZR (Z.of_nat h)))).
  { destruct L as (Lf & Lv & kl & Lk). split; [exact Lf|]. split.
    - intros k I. cbn in I. repeat (destruct I as [<-|I]; [try (apply Lv; inks); try reflexivity|]). destruct I.
    - split; [reflexivity|]. split; [exists kl; exact Lk|]. repeat split; reflexivity. }
  destruct (H h (or_introl eq_refl)) as (PH & EW & RUN). destruct (RUN q0 Q) as (B1 & B2 & B3). clear RUN.
  assert (STEP : flyable (g h) x -> exists (q2 : prop RA) (l : R), loop_ready q2 f w /\ forall (T : Type) (k : R -> prop RA -> res T),
    (let! p1 := qlrpfl RA q0 in let! wn := getn p1 WN in let! dist := getn p1 DIST in let! t := np_log (#2 * wn * dist)%num in let FS := (8685890 // 1000000 * t)%num in
     let! (a, p2) := avar RA zr #0 zc p1 in k (FS + a)%num p2) = k l q2).
  { intro FL. destruct (B3 FL) as (q & E & O & S & D). destruct (avar_step_at (g h) PH (-1) zr 0 zc x q XP O S D) as (a & q2 & Ea & O2 & S2 & D2).
    assert (VQ : pn q WN = Some (g h WN)) by (apply (proj1 (proj1 (proj1 O))); inks).
    exists q2, (8685890 / 1000000 * ln (2 * g h WN * x) + a). split.
    - assert (F1 := qlrpfl_frame RA q0 q E). assert (F2 := avar_frame RA zr 0 zc q _ Ea). cbn beta in F1, F2. cbn [snd] in F2. destruct Q as (Qf & Qv & _). split; [|split].
      + destruct F1 as (_ & _ & _ & F1), F2 as (_ & _ & _ & F2). congruence.
      + intros k I. rewrite (fr_pn _ _ _ _ _ k F2) by (cbn in I; repeat (destruct I as [<-|I]; [reflexivity|]); destruct I). rewrite (fr_pn _ _ _ _ _ k F1) by (cbn in I; repeat (destruct I as [<-|I]; [reflexivity|]); destruct I).
        replace (w k) with (at_height w (IZR (Z.of_nat h)) k) by (cbn in I; repeat (destruct I as [<-|I]; [reflexivity|]); destruct I). apply Qv. cbn in I |- *. tauto.
      + destruct S2 as (_ & lv & kl & md & _ & K & _). exists kl. exact K.
    - intros T k. change (num RA) with R in *. rewrite E. cbn [bind]. rewrite (proj2 (pn_getn RA q WN _) VQ), (proj2 (pn_getn RA q DIST _) D). cbn [bind np_log RA n_mul n_Z].
      rewrite r_log_ok by (rewrite EW; apply Rmult_lt_0_compat; [lra | exact XP]). cbn [bind]. cbv zeta. change (num RA) with R in *. rewrite Ea. cbn [bind]. reflexivity. }
  split.
  - intro FL. destruct (STEP (FL h (or_introl eq_refl))) as (q2 & l & L2 & K). destruct (IH q2 (fun k I => H k (or_intror I)) L2) as [IH1 _]. destruct (IH1 (fun k I => FL k (or_intror I))) as (rows & Er & M).
    exists ((fm, IZR (Z.of_nat h), 50, l) :: rows). split; [|cbn [map]; f_equal; exact M].
    refine (eq_trans (K _ (fun l q => let! rest := pimter_loop RA fm zr zc (map (fun k => IZR (Z.of_nat k)) ks) q in Ok ((fm, IZR (Z.of_nat h), 50, l) :: rest))) _). change (num RA) with R in *. rewrite Er. reflexivity.
  - intros [|b before] k after E FB; injection E as -> E.
    + subst after. split; [intro N; rewrite (B1 N); reflexivity | intros C SC DZ; rewrite (B2 C SC DZ); reflexivity].
    + destruct (STEP (FB b (or_introl eq_refl))) as (q2 & l & L2 & K). destruct (IH q2 (fun k I => H k (or_intror I)) L2) as [_ IH2]. destruct (IH2 before k after E (fun j J => FB j (or_intror J))) as [I1 I2].
      set (F := fun l q => let! rest := pimter_loop RA fm zr zc (map (fun k => IZR (Z.of_nat k)) ks) q in Ok ((fm, IZR (Z.of_nat b), 50, l) :: rest) : res (list (R * R * R * R))).
      split; [intro N; refine (eq_trans (K _ F) _); unfold F; change (num RA) with R in *; rewrite (I1 N); reflexivity | intros C SC DZ; refine (eq_trans (K _ F) _); unfold F; change (num RA) with R in *; rewrite (I2 C SC DZ); reflexivity].
Qed.

Lemma pyget_last {T} (l : list T) x : nth_error l (length l - 1) = Some x -> pyget l (-1) = Ok x.
Proof.
  intro H. assert (length l - 1 < length l)%nat by (apply nth_error_Some; congruence). unfold pyget. cbv zeta. change (-1 <? 0)%Z with true. cbv iota.
  destruct (Z.ltb_spec (-1 + Z.of_nat (length l)) 0); [lia|]. destruct (Z.leb_spec (Z.of_nat (length l)) (-1 + Z.of_nat (length l))); [lia|]. cbn [orb].
  replace (Z.to_nat (-1 + Z.of_nat (length l))) with (length l - 1)%nat by lia. rewrite H. reflexivity.
Qed.
Lemma walked_wf (dist z : list R) : length z = length dist -> (2 <= length dist)%nat -> nth 0 dist 0 < nth 1 dist 0 -> well_formed (walked_path dist z).
Proof. intros L L2 D. unfold well_formed, walked_path. cbn [pf_np pf_xi pf_z]. change (num RA) with R. split; [lia|]. split; [lra | lia]. Qed.
Lemma pimter_prepared (dist z : list R) : (2 <= length dist)%nat -> exists p w,
  pimter_prepare RA z dist = Ok (2488, p) /\ loop_ready p (walked_path dist z) w /\ pz p KLIM = Some 5%Z /\
  qlrps RA 2488 0 314 1 15 (5 / 1000)%R = Ok (w WN, w GME, w ENS, (w ZGR, w ZGI)) /\ 0 < w WN /\ 0 < w GME /\ w HG0 = 2.56 /\ 0 < w ZGR /\ w ZGI <> 0.
Proof.
  intros L2. set (f := walked_path dist z).
  set (wn := 2488 / (477 / 10)). assert (WN_ : 0 < wn) by (apply Rdiv_lt_0_compat; lra). destruct (path_zgnd wn 1 WN_) as (zr & zi & Ez & Z1 & Z2 & Q).
  destruct (nth_error dist 0) as [d0|] eqn:E0; [|apply nth_error_None in E0; lia]. destruct (nth_error dist 1) as [d1|] eqn:E1; [|apply nth_error_None in E1; lia].
  destruct (nth_error dist (length dist - 1)) as [dl|] eqn:EL; [|apply nth_error_None in EL; lia].
  assert (G := curvature_pos).
  set (w := fun k => match k with WN => wn | GME => script_curvature | ENS => 314 | HG0 => 2.56 | ZGR => zr | ZGI => zi | _ => 0 end).
  assert (PREP : exists p, pimter_prepare RA z dist = Ok (2488, p) /\ loop_ready p f w /\ pz p KLIM = Some 5%Z).
  { unfold pimter_prepare. cbv zeta. unfold script_gme. cbv zeta. runfold. rewrite r_div_ok by lra. cbn [bind]. dsimp.
    change (num RA) with R in *. rewrite (pyget_at dist 1 d1 E1 : pyget dist 1 = _), (pyget_at dist 0 d0 E0 : pyget dist 0 = _). cbn [bind].
    rewrite (pyget_last dist dl EL : pyget dist (-1) = _). cbn [bind]. rewrite !r_div_ok by lra. cbn [bind].
    replace (2488 / 1000 * 1000) with 2488 by lra. fold wn.
    match goal with |- context [bind ?m _] => replace m with (Ok (zr, zi) : res (R * R)) by (symmetry; exact Ez) end. cbn [bind].
    eexists. split; [reflexivity|]. split; [|reflexivity]. split; [|split; [|exists 5%Z; reflexivity]].
    - cbn. unfold f, walked_path. do 2 f_equal. rewrite (nth_error_nth dist 0 0 E0), (nth_error_nth dist 1 0 E1). reflexivity.
    - intros k I. cbn in I. repeat (destruct I as [<-|I]; [first [reflexivity | cbn; f_equal; lra | cbn; f_equal; unfold script_curvature; replace (314 / 179.3) with (314 / (1793 / 10)) by lra; cbn; lra]|]). destruct I. }
  destruct PREP as (p & EP & LR & K). exists p, w. split; [exact EP|]. split; [exact LR|]. split; [exact K|]. split; [apply Q; reflexivity|]. repeat split; assumption.
Qed.
Lemma pimter_exact (dist z : list R) : length z = length dist -> (2 <= length dist)%nat -> nth 0 dist 0 < nth 1 dist 0 ->
  let x := path_length (walked_path dist z) in let heights := seq 10 121 in exists v : nat -> nkey -> R,
  (forall k, In k heights -> flight_values dist z (INR k) (v k) /\ (x <= 200000 -> scatters (v k) x) /\ (ground_ok (v k) -> curve_ok (v k))) /\
  ((forall k, In k heights -> flyable (v k) x) -> exists rows, run_itmlogic RA z dist = Ok rows /\
     map (fun r : R * R * R * R => let '(f, h, q, _) := r in (f, h, q)) rows = map (fun k => (2488, INR k, 50)) heights) /\
  (forall k, In k heights -> (forall j, (10 <= j < k)%nat -> flyable (v j) x) ->
     (~ curve_ok (v k) -> run_itmlogic RA z dist = Err NotReal) /\
     (curve_ok (v k) -> scatters (v k) x -> divides_by_zero (v k) x -> run_itmlogic RA z dist = Err ZeroDivisionError)).
Proof.
  intros L L2 D x heights. assert (W := walked_wf dist z L L2 D). set (f := walked_path dist z) in *. assert (XP : 0 < x) by (apply len_pos; exact W).
  destruct (pimter_prepared dist z L2) as (p & w & EP & LR & _ & Q & WN_ & G & WH & Z1 & Z2). fold f in LR.
  destruct (finite_choice (fun k v => (flight_values dist z (INR k) v /\ (x <= 200000 -> scatters v x) /\ (ground_ok v -> curve_ok v)) /\ step_run f w (IZR (Z.of_nat k)) v) w heights) as [g H].
  { intros k I. apply in_seq in I. assert (K : 0 < IZR (Z.of_nat k)) by (apply IZR_lt; lia).
    destruct (step_exact f (at_height w (IZR (Z.of_nat k))) W WN_ G ltac:(cbn; rewrite WH; lra) K Z1 Z2) as (v & VW & GEO & RP & PH & SC & CO & RUN).
    exists v. split; [split; [|split; [exact SC | exact CO]]|split; [exact PH|split; [exact (VW WN ltac:(inks)) | exact RUN]]].
    split; [|split; [rewrite (VW HG0 ltac:(inks)); exact WH|split; [rewrite INR_IZR_INZ; exact (VW HG1 ltac:(inks))|split; [exact GEO | exact RP]]]].
    rewrite (VW WN), (VW GME), (VW ENS), (VW ZGR), (VW ZGI) by inks. exact Q. }
  assert (RUN : run_itmlogic RA z dist = pimter_loop RA 2488 (- (47533 / 10000))%R (- (47533 / 10000))%R (map (fun k => IZR (Z.of_nat k)) heights) p).
  { unfold run_itmlogic. rewrite pimter_dev_value. cbn [bind]. change (num RA) with R in *. rewrite EP. reflexivity. }
  destruct (loop_exact f w 2488 (- (47533 / 10000))%R (- (47533 / 10000))%R g XP WN_ heights p (fun k I => proj2 (H k I)) LR) as [H1 H2]. fold x in H1, H2.
  exists g. split; [exact (fun k I => proj1 (H k I))|]. rewrite RUN. split.
  - intro FL. destruct (H1 FL) as (rows & E & M). exists rows. split; [exact E|]. refine (eq_trans M _). apply map_ext. intro. rewrite INR_IZR_INZ. reflexivity.
  - intros k I FB. apply in_seq in I. apply (H2 (seq 10 (k - 10)) k (seq (S k) (130 - k))).
    + unfold heights. replace (seq 10 121) with (seq 10 ((k - 10) + S (130 - k))) by (f_equal; lia). rewrite seq_app. replace (10 + (k - 10))%nat with k by lia. reflexivity.
    + intros j J. apply in_seq in J. apply FB. lia.
Qed.
