(** C59: the documented entries are all it takes. *)
From Verif Require Import RInst SpecSafe PfSafePrep PfSafeScripts PyFloat Cases PfSafeNan.
Close Scope R_scope.
Open Scope Z_scope.

(** The hypotheses on the arithmetic hold of the reals, and the first of Python's numbers whatever the C library computes. *)
Theorem C59_reals : numeric RA /\ comparable RA.
Proof. exact (conj numeric_RA comparable_RA). Qed.
Print Assumptions C59_reals.
Theorem C59_python : forall L, numeric (PyA L).
Proof. exact numeric_Py. Qed.
Print Assumptions C59_python.
(** First calls: no missing entry, unset variable or wrong type, whatever the values. *)
Theorem C59_area_first : forall A k0 k1 (p : prop A), numeric A -> present area_caller control_caller p -> only_numeric (qlra A k0 k1 p).
Proof. exact (fun A k0 k1 p N => first_area A N k0 k1 p). Qed.
Print Assumptions C59_area_first.
Theorem C59_area_attenuation : forall A k0 k1 d (p q : prop A), numeric A -> comparable A -> present area_caller control_caller p ->
  qlra A k0 k1 p = Ok q -> only_numeric (lrprop A d q).
Proof. exact (fun A k0 k1 d p q N => first_lrprop A N k0 k1 d p q). Qed.
Print Assumptions C59_area_attenuation.
Theorem C59_path_first : forall A (p : prop A), numeric A -> comparable A -> present path_caller control_caller p -> ppfl p <> None ->
  only_numeric_or_index (qlrpfl A p).
Proof. exact (fun A p N => path_first A N p). Qed.
Print Assumptions C59_path_first.
(** After a first success any sequence of calls and edits, in any order, leaves every routine callable. *)
Theorem C59_area_session : forall A k0 k1 d (p q r s : prop A), numeric A -> present area_caller control_caller p -> statistics_requested p ->
  qlra A k0 k1 p = Ok q -> lrprop A d q = Ok r -> session r s ->
  (forall d', only_numeric (lrprop A d' s)) /\ (forall t l c, only_numeric (avar A t l c s)) /\
  (forall k0' k1', only_numeric (qlra A k0' k1' s)) /\ (ppfl s <> None -> only_numeric_or_index (qlrpfl A s)).
Proof. exact (fun A k0 k1 d p q r s N P R H1 H2 S => inv_all A N s (inv_session A N r s S (area_opens A N k0 k1 d p q r P R H1 H2))). Qed.
Print Assumptions C59_area_session.
Theorem C59_path_session : forall A (p q s : prop A), numeric A -> present path_caller control_caller p -> statistics_requested p ->
  qlrpfl A p = Ok q -> session q s ->
  (forall d', only_numeric (lrprop A d' s)) /\ (forall t l c, only_numeric (avar A t l c s)) /\
  (forall k0' k1', only_numeric (qlra A k0' k1' s)) /\ (ppfl s <> None -> only_numeric_or_index (qlrpfl A s)).
Proof. exact (fun A p q s N P R H S => inv_all A N s (inv_session A N q s S (path_opens A N p q P R H))). Qed.
Print Assumptions C59_path_session.
(** The scripts. *)
Theorem C59_area_script : forall A c (p : prop A), numeric A -> comparable A -> (forall a b d, area_grid A c <> Ok (a, None, b, d)) ->
  present [FMHZ; HG0; HG1; DH] [IPOL] p -> only_numeric (itmlogic_area_cfg A c p).
Proof. exact area_safe. Qed.
Print Assumptions C59_area_script.
Theorem C59_area_script_real : forall p : prop RA, present [FMHZ; HG0; HG1; DH] [IPOL] p -> only_numeric (itmlogic_area RA p).
Proof. exact area_default_safe. Qed.
Print Assumptions C59_area_script_real.
Theorem C59_p2p_script : forall A z (p : prop A), numeric A -> comparable A -> present [FMHZ; HG0; HG1; DKM] [IPOL] p ->
  only_numeric_or_index (itmlogic_p2p A z p).
Proof. exact p2p_safe. Qed.
Print Assumptions C59_p2p_script.
Theorem C59_p2p_script_real : forall z (p : prop RA) (h0 h1 d : R), present [FMHZ; HG0; HG1; DKM] [IPOL] p -> (1 <= length z)%nat ->
  pn p HG0 = Some h0 -> pn p HG1 = Some h1 -> pn p DKM = Some d -> (0 < h0)%R -> (0 < h1)%R -> (0 < d)%R ->
  only_numeric (itmlogic_p2p RA z p).
Proof. exact p2p_safe_real. Qed.
Print Assumptions C59_p2p_script_real.
Theorem C59_pimter_script : forall A t d, numeric A -> comparable A -> only_numeric_or_index (run_itmlogic A t d).
Proof. exact pimter_safe. Qed.
Print Assumptions C59_pimter_script.

(** Without comparability: a distance that is not a number makes the first lrprop end in KeyError. *)
Theorem C59_comparable_needed : exists (p q : prop TA) d, present area_caller control_caller p /\ statistics_requested p /\
  qlra TA 2 2 p = Ok q /\ lrprop TA d q = Err KeyError.
Proof. exact nan_distance. Qed.
Print Assumptions C59_comparable_needed.

(** The hypotheses are met by the run of test_area.py; the climate must be requested: with klimx = 0 and no klim, avar fails. *)
Example C59_case : present area_caller control_caller case_area /\ statistics_requested case_area.
Proof. exact nan_area. Qed.
Example C59_case_path : present path_caller control_caller case_los /\ statistics_requested case_los /\ ppfl case_los <> None.
Proof.
  split; [split; intros k Hk; repeat (destruct Hk as [<- | Hk]; [cbv; discriminate|]); destruct Hk|]. split; [|discriminate].
  right. right. exists 11, 5. split; [reflexivity|]. split; [lia|]. split; [cbv; discriminate|]. split; [reflexivity | lia].
Qed.
Example C59_case_climate : is_ok (run case_area) && is_key_error (run (setz case_area KLIMX 0)) = true.
Proof. vm_compute. reflexivity. Qed.
(** An edit between calls: terminal raised, continuing mode selected by hand. *)
Example C59_case_edit : forall p : prop TA, pn p HE0 <> None -> pz p MDP <> None -> edit p (setz (setn p HE0 (PI 40)) MDP 0).
Proof.
  intros p H M. repeat split; cbn; auto.
  - intros k. destruct k; cbn; auto; discriminate.
  - intros k. destruct k; cbn; auto; discriminate.
  - intros lv lv' H1 H2. rewrite H1 in H2. injection H2 as <-. lia.
Qed.
