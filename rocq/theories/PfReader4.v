(** Proofs about the columns pimter.py reads and the program. *)
From Coq Require Import Lia Lra.
From Verif Require Import SpecReader SpecPimter RInst PfReader PfReader3 PfPimterRun Reader Arith.
Open Scope Z_scope.

Lemma row_first l cell : l <> [] -> first_cell l cell -> pyget (row_of l) 0 = Ok cell.
Proof. intros N (rest & E). destruct l as [|c l]; [congruence|]. unfold row_of. rewrite E. reflexivity. Qed.
Lemma denotes_nonnil t x : denotes t x -> t <> [].
Proof. intros (a & m & b & _ & _ & W & -> & _) E. apply app_eq_nil in E as [_ E]. apply app_eq_nil in E as [E _]. exact (proj1 (numeral_clean m W) E). Qed.
Lemma cell_line l cell x : first_cell l cell -> denotes cell x -> l <> [].
Proof. intros (rest & E) D N. subst l. injection E as <- _. exact (denotes_nonnil _ _ D eq_refl). Qed.
Lemma denotes_float t x : denotes t x -> float_of RA t = Ok x.
Proof. intros (a & m & b & Wa & Wb & W & -> & ->). rewrite float_numeral by assumption. rewrite numeral_real. reflexivity. Qed.
(** Lines that start with a number, then anything. *)
Lemma cells_then lines xs rows broken : Forall2 (fun l x => exists cell, first_cell l cell /\ denotes cell x) lines xs ->
  first_cells RA (map row_of lines ++ rows) broken = let (ys, s) := first_cells RA rows broken in (xs ++ ys, s).
Proof.
  intro F. induction F as [|l x lines xs (cell & FC & D) F IH]; cbn [map app first_cells].
  - destruct (first_cells RA rows broken); reflexivity.
  - rewrite (row_first l cell (cell_line _ _ _ FC D) FC), (denotes_float _ _ D), IH. destruct (first_cells RA rows broken); reflexivity.
Qed.
Lemma column_read t xs : column_file t xs -> read_column RA (Some t) = (xs, None).
Proof.
  intros (e & lines & last & E & -> & P & F). unfold read_column. rewrite plain_rows by assumption.
  rewrite <- (app_nil_r (map row_of _)). rewrite (cells_then _ xs) by exact F. cbn [first_cells]. rewrite app_nil_r. reflexivity.
Qed.
(** The first line that does not start with a number. *)
Definition bad_line (l : text) (e : exn) : Prop := l = [] /\ e = IndexError \/ l <> [] /\ exists cell, first_cell l cell /\ float_of RA cell = Err e.
Lemma column_bad e lines xs l rest last ex : line_ending e -> Forall plain_line (lines ++ l :: rest ++ [last]) ->
  Forall2 (fun l x => exists cell, first_cell l cell /\ denotes cell x) lines xs -> bad_line l ex ->
  read_column RA (Some (file_of e (lines ++ l :: rest) last)) = (xs, Some (Raised ex)).
Proof.
  intros E P F B. unfold read_column. rewrite plain_rows; [|exact E|rewrite <- app_assoc; exact P].
  rewrite <- app_assoc, map_app. rewrite (cells_then _ xs) by exact F. cbn [app map first_cells].
  destruct B as [[-> ->]|(N & cell & FC & B)]; [cbn; rewrite app_nil_r; reflexivity|]. rewrite (row_first l cell N FC), B. rewrite app_nil_r. reflexivity.
Qed.
Lemma float_error t e : float_of RA t = Err e -> ~ In 95 t -> (forall x, ~ denotes t x) /\ (e = ValueError \/ e = NotReal).
Proof.
  intros H U. split.
  - intros x D. rewrite (denotes_float _ _ D) in H. discriminate.
  - unfold float_of in H. destruct (no_underscores 0 (strip t)) as [u|]; [|injection H as <-; auto]. destruct (take_sign u) as [b v]. destruct (decimal v) as [[n k]|]; [discriminate|].
    cbv zeta in H. match type of H with (if ?c then _ else _) = _ => destruct c end; injection H as <-; auto.
Qed.

(** The loop over the files. *)
Definition pair_done (A : arith) (disk : text -> option text) (f : text * text) : Prop :=
  exists z d rows, read_column A (disk (fst f)) = (z, None) /\ read_column A (disk (snd f)) = (d, None) /\ run_itmlogic A z d = Ok rows.
Lemma files_done A disk before : forall after, Forall (pair_done A disk) before ->
  pimter_files A disk (before ++ after) = let (l, s) := pimter_files A disk after in (map fst before ++ l, s).
Proof.
  induction before as [|[h l] before IH]; intros after F; cbn [app map]; [destruct (pimter_files A disk after); reflexivity|].
  inversion F as [|? ? (z & d & rows & Z & D & R) F']; subst. cbn [fst snd] in *. cbn [pimter_files]. rewrite Z, D. unfold run_itmlogic_call. rewrite R. rewrite IH by exact F'.
  destruct (pimter_files A disk after); reflexivity.
Qed.
Lemma files_all A disk files : Forall (pair_done A disk) files -> pimter_files A disk files = (map fst files, None).
Proof. intro F. rewrite <- (app_nil_r files) at 1. rewrite files_done by exact F. cbn. rewrite app_nil_r. reflexivity. Qed.
