(** Lemmas behind the lrprop property theorems: API runs, concrete counterexamples. *)
From Verif Require Import Frame SpecLr PfFrame PfLrGen PfArea Cases.

Lemma on_ok_inv {T} (r : res T) f : on_ok r f = true -> exists x, r = Ok x /\ f x = true.
Proof. destruct r; cbn; [eauto | discriminate]. Qed.
Lemma has_z_inv {A} (p : prop A) k v : has_z p k v = true -> pz p k = Some v.
Proof. unfold has_z. destruct (pz p k); [|discriminate]. intro E. apply Z.eqb_eq in E. congruence. Qed.
Lemma has_b_inv {A} (p : prop A) k v : has_b p k v = true -> pb p k = Some v.
Proof. unfold has_b. destruct (pb p k); [|discriminate]. intro E. apply Bool.eqb_prop in E. congruence. Qed.
Lemma has_n_inv {A} (p : prop A) k f : has_n p k f = true -> exists x, pn p k = Some x /\ f x = true.
Proof. unfold has_n. destruct (pn p k); [eauto|discriminate]. Qed.

Section Generic.
Context (A : arith).
Implicit Types p q : prop A.
Local Open Scope num_scope.
Lemma api_step_kwx p q : api_step p q -> kwx_step A p q.
Proof.
  intros [p0 q0 E|d p0 q0 E|t l c p0 a q0 E|k0 k1 p0 q0 E|p0 q0 E].
  - intros k K L. exists k. split; [congruence | lia].
  - exact (kwx_lrprop A d p0 q0 E).
  - exact (kwx_avar A t l c p0 (a, q0) E).
  - exact (kwx_qlra A k0 k1 p0 q0 E).
  - exact (kwx_qlrpfl A p0 q0 E).
Qed.
Lemma api_run_kwx p q : api_run p q -> forall k, pz p KWX = Some k -> (k <= 4)%Z ->
  exists k', pz q KWX = Some k' /\ (k <= k' <= 4)%Z.
Proof.
  induction 1 as [p|p q r S _ IH]; intros k K L; [exists k; split; [assumption | lia]|].
  destruct (api_step_kwx p q S k K L) as [k1 [K1 L1]]. destruct (IH k1 K1 ltac:(lia)) as [k2 [K2 L2]].
  exists k2. split; [assumption | lia].
Qed.
Lemma worst_app k l m : worst k (l ++ m) = worst (worst k l) m.
Proof. revert k. induction l as [|[b c] l IH]; intro k; [reflexivity | apply IH]. Qed.
Lemma lrprop_kwx_own d p p' m k :
  lrprop A d p = Ok p' -> pz p MDP = Some m -> m <> 0%Z -> pz p KWX = Some k -> (k <= 4)%Z ->
  exists wn hg0 hg1 the0 the1 dl0 dl1 ens gme zr zi dls0 dls1 dist dmin,
    (pn p WN = Some wn /\ pn p HG0 = Some hg0 /\ pn p HG1 = Some hg1 /\ pn p THE0 = Some the0 /\
     pn p THE1 = Some the1 /\ pn p DL0 = Some dl0 /\ pn p DL1 = Some dl1 /\ pn p ENS = Some ens /\
     pn p GME = Some gme /\ pn p ZGR = Some zr /\ pn p ZGI = Some zi) /\
    (pn p' DLS0 = Some dls0 /\ pn p' DLS1 = Some dls1 /\ pn p' DIST = Some dist /\ pn p' DMIN = Some dmin) /\
    ((dl1 >? #3 * dls0) = (dl0 >? #3 * dls0) ->
     pz p' KWX = Some (worst k (terminal_checks hg0 the0 dl0 dls0 dl0 ++ terminal_checks hg1 the1 dl1 dls1 dl1
                                ++ env_checks wn ens gme zr zi ++ dist_checks dist dmin))).
Proof.
  intros H M N K L.
  destruct (lrprop_kwx_setup A d p p' m k H M N K L) as
    (wn & hg0 & hg1 & the0 & the1 & dl0 & dl1 & ens & gme & zr & zi & dls0 & dls1 & dist & dmin & P & Q & W).
  exists wn, hg0, hg1, the0, the1, dl0, dl1, ens, gme, zr, zi, dls0, dls1, dist, dmin.
  split; [exact P|]. split; [exact Q|]. intro E. rewrite W. unfold terminal_checks. rewrite E. reflexivity.
Qed.
End Generic.

(** A 1.5 m mobile and a 100 m base station over smooth earth, horizon distances equal to the smooth-earth
    ones: nothing is out of range. *)
Definition case_mobile (h0 h1 d0 d1 : num TA) : prop TA :=
  setzs [(MDP, -1); (KWX, 0)]%Z
    (setns [(HG0, h0); (HG1, h1); (HE0, h0); (HE1, h1); (DL0, d0); (DL1, d1); (THE0, L (-1) 1000);
            (THE1, L (-1) 1000); (DIST, PI 60000); (WN, PI 10); (ENS, PI 301); (DH, PI 50);
            (GME, L 117700 1000000000000); (ZGR, L 2415 10000); (ZGI, L (-144) 1000)] (empty_prop TA)).
Definition mob := case_mobile (L 15 10) (PI 100) (PI 5049) (PI 41222).
Definition mob_swapped := case_mobile (PI 100) (L 15 10) (PI 41222) (PI 5049).
(** The codes documented for a finished set-up run from code [k] on, every check on the terminal's own
    values. *)
Definition documented_code {A} (k : Z) (p : prop A) : option Z :=
  match pn p WN, pn p HG0, pn p HG1, pn p THE0, pn p THE1, pn p DL0, pn p DL1, pn p DLS0, pn p DLS1 with
  | Some wn, Some hg0, Some hg1, Some the0, Some the1, Some dl0, Some dl1, Some dls0, Some dls1 =>
      match pn p ENS, pn p GME, pn p ZGR, pn p ZGI, pn p DIST, pn p DMIN with
      | Some ens, Some gme, Some zr, Some zi, Some dist, Some dmin =>
          Some (worst k (terminal_checks hg0 the0 dl0 dls0 dl0 ++ terminal_checks hg1 the1 dl1 dls1 dl1
                         ++ env_checks wn ens gme zr zi ++ dist_checks dist dmin))
      | _, _, _, _, _, _ => None
      end
  | _, _, _, _, _, _, _, _, _ => None
  end.
Definition opt_is (o : option Z) (v : Z) : bool := match o with Some x => (x =? v)%Z | None => false end.
Lemma opt_is_inv o v : opt_is o v = true -> o = Some v.
Proof. destruct o; cbn; [|discriminate]. intro E. apply Z.eqb_eq in E. congruence. Qed.
Lemma kwx_false_alarm :
  exists p', lrprop TA (PI 0) mob = Ok p' /\ pz p' KWX = Some 3%Z /\ documented_code 0 p' = Some 0%Z.
Proof.
  assert (H : on_ok (lrprop TA (PI 0) mob) (fun p' => has_z p' KWX 3 && opt_is (documented_code 0 p') 0) = true)
    by (vm_compute; reflexivity).
  apply on_ok_inv in H as [p' [E H]]. apply andb_true_iff in H as [H1 H2].
  exists p'. split; [assumption|]. split; [apply has_z_inv | apply opt_is_inv]; assumption.
Qed.
(** The other way round: an obstructed horizon 20 km away for the 1.5 m antenna is not reported. *)
Definition mob_missed := case_mobile (L 15 10) (PI 100) (PI 20000) (PI 15000).
Lemma kwx_missed :
  exists p', lrprop TA (PI 0) mob_missed = Ok p' /\ pz p' KWX = Some 0%Z /\ documented_code 0 p' = Some 3%Z.
Proof.
  assert (H : on_ok (lrprop TA (PI 0) mob_missed) (fun p' => has_z p' KWX 0 && opt_is (documented_code 0 p') 3) = true)
    by (vm_compute; reflexivity).
  apply on_ok_inv in H as [p' [E H]]. apply andb_true_iff in H as [H1 H2].
  exists p'. split; [assumption|]. split; [apply has_z_inv | apply opt_is_inv]; assumption.
Qed.

(** The second line-of-sight distance of an area-mode run repeats the first result. *)
Lemma area_second_distance :
  exists p0 p1 p2 q a1 a2 b, qlra TA 2 2 case_area = Ok p0 /\ lrprop TA (PI 3000) p0 = Ok p1 /\
    lrprop TA (PI 10000) p1 = Ok p2 /\ lrprop TA (PI 10000) p0 = Ok q /\
    pn p1 AREF = Some a1 /\ pn p2 AREF = Some a2 /\ pn q AREF = Some b /\
    n_eqb a1 a2 = true /\ n_ltb (n_add a2 (PI 6)) b = true.
Proof.
  assert (H : on_ok (qlra TA 2 2 case_area) (fun p0 => on_ok (lrprop TA (PI 3000) p0) (fun p1 =>
    on_ok (lrprop TA (PI 10000) p1) (fun p2 => on_ok (lrprop TA (PI 10000) p0) (fun q =>
      has_n p1 AREF (fun a1 => has_n p2 AREF (fun a2 => has_n q AREF (fun b =>
        n_eqb a1 a2 && n_ltb (n_add a2 (PI 6)) b))))))) = true) by (vm_compute; reflexivity).
  apply on_ok_inv in H as [p0 [E0 H]]. apply on_ok_inv in H as [p1 [E1 H]].
  apply on_ok_inv in H as [p2 [E2 H]]. apply on_ok_inv in H as [q [E3 H]].
  apply has_n_inv in H as [a1 [A1 H]]. apply has_n_inv in H as [a2 [A2 H]]. apply has_n_inv in H as [b [B H]].
  apply andb_true_iff in H as [H1 H2]. exists p0, p1, p2, q, a1, a2, b. repeat (split; [assumption|]). assumption.
Qed.
