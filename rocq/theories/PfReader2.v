(** What csv_writer writes, csv.reader reads. *)
From Coq Require Import Lia.
From Verif Require Import SpecReader SpecCsv PfCsv PfReader Reader.
Open Scope Z_scope.

(** A text the files can hold as a cell. *)
Definition cell_ok (f : text) : Prop := Z.of_nat (length f) <= field_limit /\ ~ In 13 f /\ ~ In 0 f.

Lemma quoted_rows f : forall acc fs t, t <> [] -> Z.of_nat (length acc) + Z.of_nat (length f) <= field_limit -> ~ In 0 f ->
  reader_rows (Reader IN_QUOTED_FIELD acc fs) (doubled f ++ quote :: t) = reader_rows (Reader QUOTE_IN_QUOTED_FIELD (acc ++ f) fs) t.
Proof.
  induction f as [|c f IH]; intros acc fs t T B N.
  - rewrite app_nil_r. cbn [doubled app reader_rows]. change (quote =? nul) with false. cbn [process_char r_state]. change (quote =? quote) with true. change (quote =? lf) with false.
    destruct t; [congruence|]. reflexivity.
  - change (length (c :: f)) with (S (length f)) in B. rewrite Nat2Z.inj_succ in B. assert (N' : ~ In 0 f) by (intro; apply N; right; assumption).
    assert (C0 : c <> 0) by (intro; subst; apply N; left; reflexivity).
    assert (L : Z.of_nat (length (acc ++ [c])) + Z.of_nat (length f) <= field_limit) by (rewrite app_length; cbn [length]; lia).
    replace (acc ++ c :: f) with ((acc ++ [c]) ++ f) by (rewrite <- app_assoc; reflexivity).
    assert (LB : field_limit <=? Z.of_nat (length acc) = false) by (apply Z.leb_gt; lia).
    assert (NE : forall x, exists a b, doubled f ++ x :: t = a :: b) by (intro x; destruct (doubled f); cbn; eauto).
    cbn [doubled]. destruct (c =? quote) eqn:Q.
    + apply Z.eqb_eq in Q. subst c. cbn [app reader_rows]. change (quote =? nul) with false. cbn [process_char r_state]. change (quote =? quote) with true. change (quote =? lf) with false. cbn [orb]. cbv iota.
      cbn [reader_rows process_char r_state]. change (quote =? nul) with false. change (quote =? quote) with true. change (quote =? lf) with false. cbv iota.
      unfold add_char. cbn [r_field r_fields]. rewrite LB. destruct (NE quote) as (a & b & E). rewrite E. cbn [orb]. cbv iota. rewrite <- E. apply IH; assumption.
    + cbn [app reader_rows]. replace (c =? nul) with false by (symmetry; apply Z.eqb_neq; exact C0). cbn [process_char r_state]. rewrite Q. unfold add_char. cbn [r_field r_fields]. rewrite LB.
      destruct (NE quote) as (a & b & E). destruct (c =? lf).
      * cbn [orb process_char r_state]. apply IH; assumption.
      * rewrite E. cbn [orb]. cbv iota. rewrite <- E. apply IH; assumption.
Qed.
Lemma special_okc f : existsb special f = false -> ~ In 13 f -> ~ In 0 f -> Forall okc f /\ split_commas f = [f].
Proof.
  induction f as [|c f IH]; intros S N13 N0; [split; [constructor|reflexivity]|].
  cbn in S. apply orb_false_elim in S as [S S']. unfold special in S. apply orb_false_elim in S as [S SL]. apply orb_false_elim in S as [SC SQ].
  destruct IH as [F E]; [exact S'|intro; apply N13; right; assumption|intro; apply N0; right; assumption|].
  apply Z.eqb_neq in SL, SQ. split.
  - constructor; [|exact F]. unfold okc. repeat split; try assumption; intro; subst; [apply N13|apply N0]; left; reflexivity.
  - cbn [split_commas]. change 44 with comma. rewrite SC, E. reflexivity.
Qed.
(** A field, then a comma or the end of the record. *)
Lemma plain_comma f : forall s g fs t, mid s g -> t <> [] -> Forall okc f -> existsb special f = false -> Z.of_nat (length g) + Z.of_nat (length f) <= field_limit ->
  reader_rows (Reader s g fs) (f ++ comma :: t) = reader_rows (Reader START_FIELD [] (fs ++ [g ++ f])) t.
Proof.
  induction f as [|c f IH]; intros s g fs t M T K S B.
  - rewrite app_nil_r. cbn [app reader_rows]. change (comma =? nul) with false. cbv iota.
    replace (process_char (Reader s g fs) (Some comma)) with (Some (Reader START_FIELD [] (fs ++ [g]))) by (destruct M as [M|[M M']]; subst; reflexivity).
    change (comma =? lf) with false. destruct t; [congruence|]. reflexivity.
  - inversion K as [|? ? (K1 & K2 & K3 & K4) K']; subst. change (length (c :: f)) with (Datatypes.S (length f)) in B. rewrite Nat2Z.inj_succ in B.
    cbn in S. apply orb_false_elim in S as [S S']. unfold special in S. apply orb_false_elim in S as [S SL]. apply orb_false_elim in S as [SC SQ].
    cbn [app reader_rows]. zeqb. cbv iota.
    replace (process_char (Reader s g fs) (Some c)) with (Some (Reader IN_FIELD (g ++ [c]) fs)).
    2:{ unfold process_char, start_field, add_char, is_break. cbn [r_state r_field r_fields]. assert (CR : (c =? cr) = false) by (apply Z.eqb_neq; exact K3).
        destruct M as [M|[M M']]; subst s; cbn [r_state]; rewrite SL, CR, SC, ?SQ; cbn [orb]; cbn [r_field r_fields]; rewrite (proj2 (Z.leb_gt _ _)) by lia; reflexivity. }
    rewrite ?SL. replace (match f ++ comma :: t with [] => true | _ => false end) with false by (destruct f; reflexivity). cbn [orb]. cbv iota.
    rewrite IH; [|left; reflexivity|exact T|exact K'|exact S'|rewrite app_length; cbn [length]; lia]. rewrite <- app_assoc. reflexivity.
Qed.
Lemma field_comma_row f fs t : t <> [] -> cell_ok f -> reader_rows (Reader START_FIELD [] fs) (csv_field f ++ comma :: t) = reader_rows (Reader START_FIELD [] (fs ++ [f])) t.
Proof.
  intros T (B & N13 & N0). unfold csv_field. destruct (existsb special f) eqn:S.
  - cbn [app]. rewrite <- app_assoc. cbn [app reader_rows]. change (quote =? nul) with false. cbn [process_char r_state start_field is_break].
    change (quote =? lf) with false. change (quote =? cr) with false. change (quote =? quote) with true. cbn [orb r_field r_fields].
    replace (match doubled f ++ quote :: comma :: t with [] => true | _ => false end) with false by (destruct (doubled f); reflexivity). cbv iota.
    change (start_field (Reader START_FIELD [] fs) (Some quote)) with (Some (Reader IN_QUOTED_FIELD [] fs)). cbv iota.
    rewrite quoted_rows; [|discriminate|cbn; lia|exact N0]. cbn [app reader_rows]. change (comma =? nul) with false. cbn [process_char r_state]. change (comma =? quote) with false. change (comma =? comma) with true. change (comma =? lf) with false.
    destruct t; [congruence|]. reflexivity.
  - destruct (special_okc f S N13 N0) as [K _]. rewrite plain_comma; [reflexivity|right; split; reflexivity|exact T|exact K|exact S|cbn; lia].
Qed.
Lemma field_lf_row f fs t : cell_ok f -> reader_rows (Reader START_FIELD [] fs) (csv_field f ++ lf :: t) = let (r, e) := reader_rows fresh_reader t in ((fs ++ [f]) :: r, e).
Proof.
  intros (B & N13 & N0). unfold csv_field. destruct (existsb special f) eqn:S.
  - cbn [app]. rewrite <- app_assoc. cbn [app reader_rows]. change (quote =? nul) with false. cbn [process_char r_state start_field is_break].
    change (quote =? lf) with false. change (quote =? cr) with false. change (quote =? quote) with true. cbn [orb r_field r_fields].
    replace (match doubled f ++ quote :: lf :: t with [] => true | _ => false end) with false by (destruct (doubled f); reflexivity). cbv iota.
    change (start_field (Reader START_FIELD [] fs) (Some quote)) with (Some (Reader IN_QUOTED_FIELD [] fs)). cbv iota.
    rewrite quoted_rows; [|discriminate|cbn; lia|exact N0]. cbn [app reader_rows]. change (lf =? nul) with false. cbn [process_char r_state is_break]. change (lf =? quote) with false. change (lf =? comma) with false. change (lf =? lf) with true.
    cbn [orb process_char save_field r_state r_field r_fields]. reflexivity.
  - destruct (special_okc f S N13 N0) as [K E]. rewrite line_rest; [|right; split; reflexivity|exact K|cbn; lia]. unfold cells_from. rewrite E. reflexivity.
Qed.
Lemma joined_rows l : forall fs t, l <> [] -> Forall cell_ok l -> reader_rows (Reader START_FIELD [] fs) (joined l ++ lf :: t) = let (r, e) := reader_rows fresh_reader t in ((fs ++ l) :: r, e).
Proof.
  induction l as [|f l IH]; intros fs t N F; [congruence|]. inversion F as [|? ? C F']; subst. destruct l as [|g l].
  - cbn [joined]. apply field_lf_row. exact C.
  - change (joined (f :: g :: l)) with (csv_field f ++ comma :: joined (g :: l)). rewrite <- app_assoc. cbn [app]. rewrite field_comma_row; [|destruct (joined (g :: l)); discriminate|exact C].
    rewrite IH; [|discriminate|exact F']. rewrite <- app_assoc. reflexivity.
Qed.
Lemma record_row l t : l <> [] -> Forall cell_ok l -> reader_rows fresh_reader (csv_record l ++ t) = let (r, e) := reader_rows fresh_reader t in (l :: r, e).
Proof.
  intros N F. unfold csv_record. rewrite <- app_assoc. cbn [app].
  assert (J : forall c u, joined l ++ [lf] = c :: u -> c <> lf -> c <> cr -> reader_rows fresh_reader (joined l ++ lf :: t) = let (r, e) := reader_rows fresh_reader t in (l :: r, e)).
  { intros c u E CL CC. refine (eq_trans _ (joined_rows l [] t N F)). replace (joined l ++ lf :: t) with (c :: u ++ t) by (change (lf :: t) with ([lf] ++ t); rewrite app_assoc, E; reflexivity).
    apply start_record. unfold is_break. rewrite (proj2 (Z.eqb_neq _ _) CL), (proj2 (Z.eqb_neq _ _) CC). reflexivity. }
  assert (H : forall f u, cell_ok f -> f <> [] -> exists c v, csv_field f ++ u = c :: v /\ c <> lf /\ c <> cr).
  { intros f u (_ & N13 & _) NE. unfold csv_field. destruct (existsb special f) eqn:S; [do 2 eexists; split; [reflexivity|]; split; discriminate|].
    destruct f as [|c f]; [congruence|]. do 2 eexists. split; [reflexivity|]. cbn in S. apply orb_false_elim in S as [S _]. unfold special in S. apply orb_false_elim in S as [_ S].
    apply Z.eqb_neq in S. split; [exact S|]. intro; subst. apply N13. left. reflexivity. }
  destruct l as [|f l]; [congruence|]. inversion F as [|? ? C F']; subst.
  destruct f as [|c f].
  - destruct l as [|g l].
    + cbn [joined]. cbn [reader_rows app process_char fresh_reader r_state r_field r_fields]. reflexivity.
    + eapply J; [reflexivity| |]; discriminate.
  - destruct (H (c :: f) (match l with [] => [lf] | _ => comma :: joined l ++ [lf] end) C ltac:(discriminate)) as (d & v & E & D1 & D2).
    destruct l as [|g l]; eapply J; try eassumption.
    change (joined ((c :: f) :: g :: l)) with (csv_field (c :: f) ++ comma :: joined (g :: l)). rewrite <- app_assoc. exact E.
Qed.
Lemma records_rows : forall l : list (list text), (forall fs, In fs l -> fs <> [] /\ Forall cell_ok fs) ->
  reader_rows fresh_reader (concat (map csv_record l)) = (l, false).
Proof.
  induction l as [|fs l IH]; intro H; [reflexivity|]. cbn [map concat]. destruct (H fs (or_introl eq_refl)) as [N F]. rewrite record_row by assumption.
  rewrite IH; [reflexivity|]. intros; apply H; right; assumption.
Qed.

Lemma doubled_in c f : In c (doubled f) -> In c f \/ c = quote.
Proof. induction f as [|d f IH]; [intros []|]. cbn. destruct (d =? quote) eqn:Q; cbn; [apply Z.eqb_eq in Q; subst; intros [H|[H|H]]|intros [H|H]]; auto; destruct (IH H); auto. Qed.
Lemma field_in c f : In c (csv_field f) -> In c f \/ c = quote.
Proof.
  unfold csv_field. destruct (existsb special f); [|auto]. intros [H|H]; [auto|]. apply in_app_or in H as [H|[H|[]]]; [apply doubled_in; exact H|auto].
Qed.
Lemma record_nocr l : Forall no_cr l -> no_cr (csv_record l).
Proof.
  intro F. assert (J : ~ In 13 (joined l)).
  { induction l as [|f l IH]; [intros []|]. inversion F as [|? ? N F']; subst. specialize (IH F'). destruct l as [|g l].
    - cbn. intro H. apply field_in in H as [H|H]; [exact (N H)|discriminate].
    - change (joined (f :: g :: l)) with (csv_field f ++ comma :: joined (g :: l)). intro H. apply in_app_or in H as [H|[H|H]]; [|discriminate|exact (IH H)].
      apply field_in in H as [H|H]; [exact (N H)|discriminate]. }
  unfold no_cr, csv_record. intro H. apply in_app_or in H as [H|[H|[]]]; [|discriminate].
  destruct l as [|f [|g l]]; try exact (J H). 1: (destruct f; [destruct H as [H|[H|[]]]; discriminate|exact (J H)]). destruct f; exact (J H).
Qed.
Lemma records_nocr (l : list (list text)) : (forall fs, In fs l -> Forall no_cr fs) -> no_cr (concat (map csv_record l)).
Proof.
  unfold no_cr. intros H I. apply in_concat in I as (r & R & I). apply in_map_iff in R as (fs & <- & R). exact (record_nocr fs (H fs R) I).
Qed.
Lemma written_rows (l : list (list text)) : (forall fs, In fs l -> fs <> [] /\ Forall cell_ok fs) -> csv_reader (concat (map csv_record l)) = (l, false).
Proof.
  intro H. unfold csv_reader. rewrite universal_nocr; [apply records_rows; exact H|]. apply records_nocr. intros fs I. destruct (H fs I) as [_ F].
  eapply Forall_impl; [|exact F]. intros f (_ & N & _). exact N.
Qed.
Section Written.
Context {V : Type} (show : V -> text).
Lemma cells_ok names (r : dict V) : (forall k v, In (k, v) r -> cell_ok (show v)) -> Forall cell_ok (cells show names r).
Proof.
  intros H. apply Forall_forall. intros c I. apply in_map_iff in I. destruct I as (k & <- & I).
  destruct (dict_get k r) as [v|] eqn:E; [exact (H k v (dict_get_some k r v E)) | split; [discriminate|split; intros []]].
Qed.
Lemma csv_round_trip old (first : dict V) rest :
  first <> [] -> (forall r, In r (first :: rest) -> NoDup (map fst r)) -> (forall r, In r (first :: rest) -> incl (map fst r) (map fst first)) ->
  Forall cell_ok (map fst first) -> (forall r k v, In r (first :: rest) -> In (k, v) r -> cell_ok (show v)) ->
  exists t recs, csv_writer show old (first :: rest) = (Some t, Ok tt) /\ csv_reader t = (map fst first :: recs, false) /\
    Forall2 (fun (r : dict V) cs => Forall2 (fun k c => (forall v, In (k, v) r -> c = show v) /\ (~ In k (map fst r) -> c = [])) (map fst first) cs) (first :: rest) recs.
Proof.
  intros NE ND Sub Fn Fv. destruct (csv_read_back show old first rest NE ND Sub) as (t & recs & W & R & F).
  { eapply Forall_impl; [|exact Fn]. intros f (_ & N & _). exact N. }
  { intros r k v I J. exact (proj1 (proj2 (Fv r k v I J))). }
  exists t, recs. split; [exact W|]. split; [|exact F].
  assert (Fn' : Forall no_cr (map fst first)) by (eapply Forall_impl; [|exact Fn]; intros f (_ & N & _); exact N).
  assert (Q := written_read show (map fst first) (first :: rest) ltac:(destruct first; [contradiction|discriminate]) Fn' (fun r k v I J => proj1 (proj2 (Fv r k v I J)))).
  rewrite csv_ok in W by exact Sub. apply (f_equal fst) in W. cbn [fst] in W. assert (W' := f_equal (fun o : option text => match o with Some x => x | None => [] end) W). cbv beta iota in W'. clear W.
  rewrite W' in Q. rewrite R in Q. assert (Q' : recs = map (cells show (map fst first)) (first :: rest)) by (injection Q; auto). rewrite Q', <- W'. clear Q Q' W' R F.
  replace (csv_record (map fst first) ++ concat (map (fun r => csv_record (cells show (map fst first) r)) (first :: rest))) with (concat (map csv_record (map fst first :: map (cells show (map fst first)) (first :: rest)))) by (cbn [map concat]; rewrite map_map; reflexivity).
  apply written_rows. intros fs [I|I].
  - subst fs. split; [destruct first; [contradiction|discriminate]|exact Fn].
  - apply in_map_iff in I as (r & <- & I). split; [destruct first; [contradiction|discriminate]|]. apply cells_ok. intros; eapply Fv; eassumption.
Qed.
End Written.
