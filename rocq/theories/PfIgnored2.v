(** The settings stay as they are. *)
From Verif Require Import Frame SpecDict SpecIgnored PfFrame PfIgnored Scripts Arith.

Section Kept.
Context (A : arith).
Notation num := (num A).
Notation prop := (prop A).
Implicit Types p q : prop.
Lemma kept_frame nk zk bk p q : forallb (fun k => negb (memn k nk)) settings_n = true -> forallb (fun k => negb (memz k zk)) settings_z = true -> same_except nk zk bk p q -> settings_kept p q.
Proof.
  rewrite !forallb_forall. intros N Z (F & G & _). split; intros k I; [apply F, memn_nIn | apply G, memz_nIn]; [apply N in I | apply Z in I]; [destruct (memn k nk) | destruct (memz k zk)]; first [discriminate | reflexivity].
Qed.
Lemma ignored_run (m : prop -> res prop) nk zk bk : (forall p q, but_settings p q -> same_outcome but_settings (m p) (m q)) -> (forall p, wp (m p) (same_except nk zk bk p)) ->
  forallb (fun k => negb (memn k nk)) settings_n = true -> forallb (fun k => negb (memz k zk)) settings_z = true -> forall p q, but_settings p q ->
  same_outcome (fun p' q' => but_settings p' q' /\ settings_kept p p' /\ settings_kept q q') (m p) (m q).
Proof.
  intros B F N Z p q H. specialize (B p q H). assert (Fp := F p). assert (Fq := F q). destruct (m p), (m q); cbn [same_outcome] in *; try contradiction; [|exact B].
  split; [exact B|]. split; [exact (kept_frame _ _ _ _ _ N Z (Fp _ eq_refl)) | exact (kept_frame _ _ _ _ _ N Z (Fq _ eq_refl))].
Qed.
Lemma ignored_lrprop d p q : but_settings p q -> same_outcome (fun p' q' => but_settings p' q' /\ settings_kept p p' /\ settings_kept q q') (lrprop A d p) (lrprop A d q).
Proof. revert p q. eapply ignored_run; [apply bs_lrprop | intro; apply lrprop_frame | reflexivity | reflexivity]. Qed.
Lemma ignored_qlrpfl p q : but_settings p q -> same_outcome (fun p' q' => but_settings p' q' /\ settings_kept p p' /\ settings_kept q q') (qlrpfl A p) (qlrpfl A q).
Proof. revert p q. eapply ignored_run; [apply bs_qlrpfl | intro; apply qlrpfl_frame | reflexivity | reflexivity]. Qed.
Lemma ignored_qlra k0 k1 p q : but_settings p q -> same_outcome (fun p' q' => but_settings p' q' /\ settings_kept p p' /\ settings_kept q q') (qlra A k0 k1 p) (qlra A k0 k1 q).
Proof. revert p q. eapply ignored_run; [apply bs_qlra | intro; apply qlra_frame | reflexivity | reflexivity]. Qed.
Lemma ignored_avar t l c p q : but_settings p q ->
  same_outcome (fun r s => fst r = fst s /\ but_settings (snd r) (snd s) /\ settings_kept p (snd r) /\ settings_kept q (snd s)) (avar A t l c p) (avar A t l c q).
Proof.
  intro H. assert (B := bs_avar A t l c p q H). assert (Fp := avar_frame A t l c p). assert (Fq := avar_frame A t l c q). destruct (avar A t l c p) as [[a p']|], (avar A t l c q) as [[b q']|]; cbn in *; try contradiction; [|exact B].
  destruct B as [E B]. split; [exact E|]. split; [exact B|]. split; [specialize (Fp _ eq_refl) | specialize (Fq _ eq_refl)]; cbn [snd] in *; (eapply kept_frame; [| |eassumption]; reflexivity).
Qed.
End Kept.
