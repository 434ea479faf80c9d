(** Proofs about pimter.py run as a program, and the number float() makes of a numeral in any arithmetic. *)
From Coq Require Import Lia Lra.
From Verif Require Import SpecReader SpecPimter RInst PfReader PfReader3 PfReader4 PfReader5 PfPimterRun Scripts Reader Arith.
Open Scope Z_scope.

Lemma float_any (A : arith) a m b : white a -> white b -> is_numeral m -> exists n e,
  numeral_value m = signed Ropp (m_sign m) (IZR n * powerRZ 10 e)%R /\ float_of A (a ++ numeral_text m ++ b) = Ok (signed n_opp (m_sign m) (scaled A n e)).
Proof.
  intros Wa Wb W. exists (all_digits m), (exponent_of m - Z.of_nat (length (fraction_digits m))). split; [|exact (float_numeral A a m b Wa Wb W)].
  rewrite <- numeral_real. unfold numeral_num. rewrite scaled_value. reflexivity.
Qed.

(** Both files of the pair hold columns of numbers and the losses can be computed from them. *)
Definition pair_ok (disk : text -> option text) (f : text * text) : Prop :=
  exists th tl z d rows, disk (fst f) = Some th /\ disk (snd f) = Some tl /\ column_file th z /\ column_file tl d /\ run_itmlogic RA z d = Ok rows.
Lemma pair_ok_done disk f : pair_ok disk f -> pair_done RA disk f.
Proof. intros (th & tl & z & d & rows & Eh & El & H & L & R). exists z, d, rows. rewrite Eh, El. split; [exact (column_read _ _ H)|]. split; [exact (column_read _ _ L)|exact R]. Qed.
Lemma program_all disk : Forall (pair_ok disk) pimter_main_files -> pimter_program RA disk = (map fst pimter_main_files, None).
Proof. intro F. apply files_all. eapply Forall_impl; [|exact F]. intro f. apply pair_ok_done. Qed.
Definition file_fails (content : option text) (s : stop) : Prop :=
  content = None /\ s = FileNotFoundError \/
  exists e lines xs l rest last ex, content = Some (file_of e (lines ++ l :: rest) last) /\ line_ending e /\ Forall plain_line (lines ++ l :: rest ++ [last]) /\
    Forall2 (fun l x => exists cell, first_cell l cell /\ denotes cell x) lines xs /\ bad_line l ex /\ s = Raised ex.
Lemma file_fails_read content s : file_fails content s -> exists xs, read_column RA content = (xs, Some s).
Proof.
  intros [[-> ->]|(e & lines & xs & l & rest & last & ex & -> & E & P & F & B & ->)]; [exists []; reflexivity|]. exists xs. apply column_bad; assumption.
Qed.
Definition pair_fails (disk : text -> option text) (f : text * text) (s : stop) : Prop :=
  file_fails (disk (fst f)) s \/
  exists th z, disk (fst f) = Some th /\ column_file th z /\
    (file_fails (disk (snd f)) s \/ exists tl d e, disk (snd f) = Some tl /\ column_file tl d /\ run_itmlogic RA z d = Err e /\ s = Raised e).
Lemma program_first disk before f after s : pimter_main_files = before ++ f :: after -> Forall (pair_ok disk) before -> pair_fails disk f s ->
  pimter_program RA disk = (map fst before, Some s).
Proof.
  intros E F P. unfold pimter_program. rewrite E. rewrite files_done; [|eapply Forall_impl; [|exact F]; intro; apply pair_ok_done].
  enough (H : pimter_files RA disk (f :: after) = ([], Some s)) by (rewrite H, app_nil_r; reflexivity). clear E F. destruct f as [h l]. unfold pair_fails in P. cbn [fst snd] in P. cbn [pimter_files].
  destruct P as [P|(th & z & Eh & H & P)].
  - destruct (file_fails_read _ _ P) as [xs R]. rewrite R. reflexivity.
  - rewrite Eh. pose proof (column_read _ _ H : read_column RA (@Some text th) = (z, None)) as Rh. rewrite Rh. destruct P as [P|(tl & d & e & El & L & R & ->)].
    + destruct (file_fails_read _ _ P) as [xs R]. rewrite R. reflexivity.
    + rewrite El. pose proof (column_read _ _ L : read_column RA (@Some text tl) = (d, None)) as Rl. rewrite Rl. unfold run_itmlogic_call. rewrite R. reflexivity.
Qed.
Lemma program_blind disk disk' : Forall (pair_ok disk) pimter_main_files -> Forall (pair_ok disk') pimter_main_files -> pimter_program RA disk = pimter_program RA disk'.
Proof. intros F F'. rewrite !program_all by assumption. reflexivity. Qed.
