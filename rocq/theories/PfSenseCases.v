(** Two hills that differ by a metre. *)
From Coq Require Import Lra Lia.
From Verif Require Import RTac SpecSense Prep PfHzns PfTerrainCases PfTilt PfTiltCases Arith.
Open Scope R_scope.
Lemma peak_length x H : path_length (peak x H) = 2 * x.
Proof. unfold path_length. change (intervals (peak x H)) with 2%nat. change (pf_xi (peak x H) : R) with x. cbn. ring. Qed.
Lemma peak_horizons x H h0 h1 g : 0 < x -> 0 <= g -> h0 + h1 < 2 * H -> exists t0 t1, hzns RA (peak x H) (path_length (peak x H)) h0 h1 g = Ok (t0, t1, x, x).
Proof.
  intros X G HH. destruct (hzns_angles (peak x H) h0 h1 g (peak_wf x H X)) as (t0 & t1 & d0 & d1 & E & A0 & A1 & _).
  destruct (hzns_distances (peak x H) h0 h1 g t0 t1 d0 d1 (peak_wf x H X) E) as (I0 & I1 & _). rewrite peak_rev in A1, I1.
  rewrite (peak_far x H h0 h1 g d0 t0 X G HH A0 I0), (peak_far x H h1 h0 g d1 t1 X G ltac:(lra) A1 I1) in E. exists t0, t1. exact E.
Qed.
Lemma peaks : same_path (peak 1000 60) (peak 1000 61) /\ heights_within 1 0 2 (peak 1000 60) (peak 1000 61) /\ (forall j, (j <= 2)%nat -> ground (peak 1000 60) j <= ground (peak 1000 61) j) /\
  (exists t0 t1, hzns RA (peak 1000 60) (path_length (peak 1000 60)) 10 10 (1 / 10000000) = Ok (t0, t1, 1000, 1000)) /\
  (exists u0 u1, hzns RA (peak 1000 61) (path_length (peak 1000 60)) 10 10 (1 / 10000000) = Ok (u0, u1, 1000, 1000)) /\ 1000 + 1000 < 3 / 2 * path_length (peak 1000 60).
Proof.
  split; [repeat split; try (apply peak_wf; lra)|]. split; [intros [|[|[|k]]] K; cbn; lra || lia|]. split; [intros [|[|[|k]]] K; cbn; lra || lia|].
  split; [apply peak_horizons; lra|]. split; [replace (path_length (peak 1000 60)) with (path_length (peak 1000 61)) by (rewrite !peak_length; reflexivity); apply peak_horizons; lra|].
  rewrite peak_length. lra.
Qed.
