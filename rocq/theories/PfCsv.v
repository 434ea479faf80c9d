(** Proofs for C62: what csv_writer writes reads back. *)
From Verif Require Import SpecCsv Csv SpecScripts PfP2P PfAreaGrid.
From Coq Require Import String Lia Sorting.Sorted Reals Lra.
Import Verif.Arith.
Open Scope string_scope. Open Scope list_scope. Open Scope Z_scope.

Lemma text_eqb_eq : forall a b, text_eqb a b = true <-> a = b.
Proof.
  induction a as [|x a IH]; destruct b as [|y b]; cbn; try (split; [discriminate | discriminate]); [split; reflexivity|].
  rewrite Bool.andb_true_iff, Z.eqb_eq, IH. split; [intros (-> & ->); reflexivity | injection 1 as -> ->; split; reflexivity].
Qed.
Lemma mem_text : forall k l, existsb (text_eqb k) l = true <-> In k l.
Proof. intros. rewrite existsb_exists. split; [intros (x & I & E); apply text_eqb_eq in E; subst; exact I | intro I; exists k; split; [exact I | apply text_eqb_eq; reflexivity]]. Qed.

Notation opt_cons r o := (match o with Some l => Some (r :: l) | None => None end).

Lemma read_plain : forall f acc rec t, existsb special f = false -> ~ In 13 f ->
  read_from InField acc rec (f ++ t) = read_from InField (acc ++ f) rec t.
Proof.
  induction f as [|c f IH]; intros acc rec t E N; [rewrite app_nil_r; reflexivity|].
  cbn in E. apply Bool.orb_false_iff in E. destruct E as (Ec & E). unfold special, comma, quote, lf in Ec.
  apply Bool.orb_false_iff in Ec. destruct Ec as (Ec & E3). apply Bool.orb_false_iff in Ec. destruct Ec as (E1 & E2).
  assert (E4 : (c =? 13) = false) by (apply Z.eqb_neq; intros ->; apply N; left; reflexivity).
  cbn [app read_from]. rewrite E1, E2, E3, E4. cbn [orb]. rewrite IH; [|exact E | intro I; apply N; right; exact I].
  rewrite <- app_assoc. reflexivity.
Qed.
Lemma read_quoted : forall f acc rec t, read_from InQuotes acc rec (doubled f ++ quote :: t) = read_from AfterQuote (acc ++ f) rec t.
Proof.
  induction f as [|c f IH]; intros acc rec t; [rewrite app_nil_r; reflexivity|].
  cbn [doubled]. unfold quote in *. destruct (c =? 34) eqn:E.
  - cbn [app read_from]. rewrite !Z.eqb_refl. rewrite IH, <- app_assoc. apply Z.eqb_eq in E. subst c. reflexivity.
  - cbn [app read_from]. rewrite E, IH, <- app_assoc. reflexivity.
Qed.
Lemma field_comma : forall f rec t, no_cr f -> read_from StartOfField [] rec (csv_field f ++ comma :: t) = read_from StartOfField [] (rec ++ [f]) t.
Proof.
  intros f rec t N. unfold csv_field. destruct (existsb special f) eqn:E.
  - cbn [app]. rewrite <- app_assoc. cbn [app]. change (read_from StartOfField [] rec (quote :: doubled f ++ quote :: comma :: t)) with
      (read_from InQuotes [] rec (doubled f ++ quote :: comma :: t)). rewrite read_quoted. reflexivity.
  - destruct f as [|c f]; [reflexivity|]. cbn in E. apply Bool.orb_false_iff in E. destruct E as (Ec & E). unfold special, comma, quote, lf in Ec.
    apply Bool.orb_false_iff in Ec. destruct Ec as (Ec & E3). apply Bool.orb_false_iff in Ec. destruct Ec as (E1 & E2).
    assert (E4 : (c =? 13) = false) by (apply Z.eqb_neq; intros ->; apply N; left; reflexivity).
    cbn [app read_from]. rewrite E1, E2, E3, E4. rewrite read_plain; [reflexivity | exact E | intro I; apply N; right; exact I].
Qed.
Lemma field_lf : forall f rec t, no_cr f -> rec <> [] \/ f <> [] ->
  read_from StartOfField [] rec (csv_field f ++ lf :: t) = opt_cons (rec ++ [f]) (read_from StartOfField [] [] t).
Proof.
  intros f rec t N H. unfold csv_field. destruct (existsb special f) eqn:E.
  - cbn [app]. rewrite <- app_assoc. cbn [app]. change (read_from StartOfField [] rec (quote :: doubled f ++ quote :: lf :: t)) with
      (read_from InQuotes [] rec (doubled f ++ quote :: lf :: t)). rewrite read_quoted. reflexivity.
  - destruct f as [|c f]; [destruct rec; [destruct H as [H|H]; contradiction H; reflexivity | reflexivity]|].
    cbn in E. apply Bool.orb_false_iff in E. destruct E as (Ec & E). unfold special, comma, quote, lf in Ec.
    apply Bool.orb_false_iff in Ec. destruct Ec as (Ec & E3). apply Bool.orb_false_iff in Ec. destruct Ec as (E1 & E2).
    assert (E4 : (c =? 13) = false) by (apply Z.eqb_neq; intros ->; apply N; left; reflexivity).
    cbn [app read_from]. rewrite E1, E2, E3, E4. rewrite read_plain; [reflexivity | exact E | intro I; apply N; right; exact I].
Qed.
Lemma record_read : forall fs rec t, fs <> [] -> Forall no_cr fs -> rec <> [] \/ fs <> [[]] ->
  read_from StartOfField [] rec (joined fs ++ lf :: t) = opt_cons (rec ++ fs) (read_from StartOfField [] [] t).
Proof.
  induction fs as [|f l IH]; intros rec t NE F H; [contradiction NE; reflexivity|].
  inversion F as [|? ? Nf Fl]; subst. destruct l as [|g l].
  - cbn [joined]. apply field_lf; [exact Nf|]. destruct H as [H|H]; [left; exact H | right; intros ->; apply H; reflexivity].
  - change (joined (f :: g :: l)) with (csv_field f ++ comma :: joined (g :: l)). rewrite <- app_assoc. cbn [app].
    rewrite field_comma by exact Nf. rewrite IH; [rewrite <- app_assoc; reflexivity | discriminate | exact Fl | left; intro E; destruct rec; discriminate].
Qed.
Lemma csv_record_read : forall fs t, fs <> [] -> Forall no_cr fs -> read_csv (csv_record fs ++ t) = opt_cons fs (read_csv t).
Proof.
  intros fs t NE F. unfold read_csv, csv_record. rewrite <- app_assoc.
  destruct fs as [|f l]; [contradiction NE; reflexivity|]. destruct f as [|c f]; [destruct l as [|g l]|].
  - reflexivity.
  - apply (record_read ([] :: g :: l) [] t); [discriminate | exact F | right; discriminate].
  - apply (record_read ((c :: f) :: l) [] t); [discriminate | exact F | right; discriminate].
Qed.

Section Write.
Context {V : Type} (show : V -> text).

Lemma dict_get_in : forall k (r : dict V) v, NoDup (map fst r) -> In (k, v) r -> dict_get k r = Some v.
Proof.
  induction r as [|(k', w) l IH]; intros v N I; [destruct I|]. cbn in N. inversion N as [|? ? Nk Nl]; subst. cbn [dict_get]. destruct I as [I|I].
  - injection I as -> ->. rewrite (proj2 (text_eqb_eq k k) eq_refl). reflexivity.
  - destruct (text_eqb k k') eqn:E; [|apply IH; assumption]. apply text_eqb_eq in E. subst k'. contradiction Nk. exact (in_map fst _ _ I).
Qed.
Lemma dict_get_some : forall k (r : dict V) v, dict_get (V := V) k r = Some v -> In (k, v) r.
Proof.
  induction r as [|(k', w) l IH]; intros v E; [discriminate E|]. cbn [dict_get] in E. destruct (text_eqb k k') eqn:Ek.
  - injection E as ->. apply text_eqb_eq in Ek. subst. left. reflexivity.
  - right. apply IH. exact E.
Qed.
Lemma dict_get_none : forall k (r : dict V), dict_get (V := V) k r = None <-> ~ In k (map fst r).
Proof.
  induction r as [|(k', w) l IH]; cbn; [split; [tauto | reflexivity]|]. destruct (text_eqb k k') eqn:Ek.
  - apply text_eqb_eq in Ek. subst. split; [discriminate | intro H; contradiction H; left; reflexivity].
  - rewrite IH. split; intros H; [intros [E|E]; [subst; rewrite (proj2 (text_eqb_eq k k) eq_refl) in Ek; discriminate | exact (H E)] | intro E; apply H; right; exact E].
Qed.
Definition cells (names : list text) (r : dict V) : list text := map (fun k => match dict_get k r with Some v => show v | None => [] end) names.
Lemma dict_to_list_ok : forall names (r : dict V), (forall k, In k (map fst r) -> In k names) -> dict_to_list show names r = Ok (cells names r).
Proof.
  intros names r H. unfold dict_to_list. replace (existsb _ r) with false; [reflexivity|]. symmetry. apply Bool.not_true_is_false. intro E.
  apply existsb_exists in E. destruct E as (kv & I & E). apply Bool.negb_true_iff in E. rewrite (proj2 (mem_text (fst kv) names)) in E; [discriminate|].
  apply H. apply in_map. exact I.
Qed.
Lemma dict_to_list_err : forall names (r : dict V) k, In k (map fst r) -> ~ In k names -> dict_to_list show names r = Err ValueError.
Proof.
  intros names r k I N. unfold dict_to_list. replace (existsb _ r) with true; [reflexivity|]. symmetry. apply existsb_exists.
  apply in_map_iff in I. destruct I as (kv & <- & I). exists kv. split; [exact I|]. apply Bool.negb_true_iff. apply Bool.not_true_is_false. rewrite mem_text. exact N.
Qed.
Lemma write_rows_ok : forall names (data : list (dict V)), (forall r, In r data -> forall k, In k (map fst r) -> In k names) ->
  write_rows show names data = (concat (map (fun r => csv_record (cells names r)) data), Ok tt).
Proof.
  intros names. induction data as [|r l IH]; intros H; [reflexivity|]. cbn [write_rows].
  rewrite dict_to_list_ok by (apply H; left; reflexivity). rewrite IH by (intros; apply (H r0); [right; assumption | assumption]). reflexivity.
Qed.
Lemma write_rows_err : forall names before (r : dict V) after k, (forall r, In r before -> forall k, In k (map fst r) -> In k names) ->
  In k (map fst r) -> ~ In k names ->
  write_rows show names (before ++ r :: after) = (concat (map (fun r => csv_record (cells names r)) before), Err ValueError).
Proof.
  intros names. induction before as [|b l IH]; intros r after k H I N; cbn [app write_rows].
  - rewrite (dict_to_list_err _ _ k I N). reflexivity.
  - rewrite dict_to_list_ok by (apply H; left; reflexivity).
    rewrite (IH r after k); [reflexivity | intros r0 I0; apply H; right; exact I0 | exact I | exact N].
Qed.
Lemma records_read : forall (l : list (list text)) t, (forall fs, In fs l -> fs <> [] /\ Forall no_cr fs) ->
  read_csv (concat (map csv_record l) ++ t) = match read_csv t with Some r => Some (l ++ r) | None => None end.
Proof.
  induction l as [|fs l IH]; intros t H; cbn [map concat app]; [destruct (read_csv t); reflexivity|].
  rewrite <- app_assoc. rewrite csv_record_read by (apply H; left; reflexivity). rewrite IH by (intros; apply H; right; assumption).
  destruct (read_csv t); reflexivity.
Qed.
Lemma cells_nocr : forall names (r : dict V), (forall k v, In (k, v) r -> no_cr (show v)) -> Forall no_cr (cells names r).
Proof.
  intros names r H. apply Forall_forall. intros c I. apply in_map_iff in I. destruct I as (k & <- & I).
  destruct (dict_get k r) as [v|] eqn:E; [exact (H k v (dict_get_some k r v E)) | intros []].
Qed.
Lemma written_read : forall names (data : list (dict V)), names <> [] -> Forall no_cr names -> (forall r k v, In r data -> In (k, v) r -> no_cr (show v)) ->
  read_csv (csv_record names ++ concat (map (fun r => csv_record (cells names r)) data)) = Some (names :: map (cells names) data).
Proof.
  intros names data NE Fn Fv. rewrite csv_record_read by assumption.
  rewrite <- (app_nil_r (concat _)). rewrite <- (map_map (cells names) csv_record). rewrite records_read; [cbn; rewrite app_nil_r; reflexivity|].
  intros fs I. apply in_map_iff in I. destruct I as (r & <- & I). split; [destruct names; [contradiction | discriminate] | apply cells_nocr; intros; eapply Fv; eassumption].
Qed.

(** Every key of every row is a key of the first. *)
Lemma csv_ok : forall old (first : dict V) rest, (forall r, In r (first :: rest) -> incl (map fst r) (map fst first)) ->
  csv_writer show old (first :: rest) = (Some (csv_record (map fst first) ++ concat (map (fun r => csv_record (cells (map fst first) r)) (first :: rest))), Ok tt).
Proof. intros old first rest H. unfold csv_writer. rewrite write_rows_ok by (intros r I k Ik; exact (H r I k Ik)). reflexivity. Qed.

Lemma csv_read_back : forall old (first : dict V) rest,
  first <> [] -> (forall r, In r (first :: rest) -> NoDup (map fst r)) -> (forall r, In r (first :: rest) -> incl (map fst r) (map fst first)) ->
  Forall no_cr (map fst first) -> (forall r k v, In r (first :: rest) -> In (k, v) r -> no_cr (show v)) ->
  exists t recs, csv_writer show old (first :: rest) = (Some t, Ok tt) /\ read_csv t = Some (map fst first :: recs) /\
    Forall2 (fun (r : dict V) cs => Forall2 (fun k c => (forall v, In (k, v) r -> c = show v) /\ (~ In k (map fst r) -> c = [])) (map fst first) cs) (first :: rest) recs.
Proof.
  intros old first rest NE ND Sub Fn Fv. eexists. exists (map (cells (map fst first)) (first :: rest)).
  split; [apply csv_ok; exact Sub|]. split; [apply written_read; [destruct first; [contradiction|discriminate] | exact Fn | exact Fv]|].
  assert (G : forall l, (forall r, In r l -> NoDup (map fst r)) -> Forall2 (fun (r : dict V) cs => Forall2 (fun k c => (forall v, In (k, v) r -> c = show v) /\ (~ In k (map fst r) -> c = [])) (map fst first) cs) l (map (cells (map fst first)) l)).
  { induction l as [|r l IH]; intros H; [constructor|]. constructor; [|apply IH; intros; apply H; right; assumption]. unfold cells.
    generalize (map fst first). induction l0 as [|k ks IHk]; [constructor|]. constructor; [|exact IHk]. split.
    - intros v I. rewrite (dict_get_in k r v); [reflexivity | apply H; left; reflexivity | exact I].
    - intros N. apply dict_get_none in N. rewrite N. reflexivity. }
  exact (G _ ND).
Qed.
(** A row with a key the first one does not have. *)
Lemma csv_extra : forall old (first : dict V) before (r : dict V) after k,
  (forall r, In r before -> incl (map fst r) (map fst first)) ->
  In k (map fst r) -> ~ In k (map fst first) ->
  exists t, csv_writer show old (first :: before) = (Some t, Ok tt) /\ csv_writer show old (first :: before ++ r :: after) = (Some t, Err ValueError).
Proof.
  intros old first before r after k Sub I N. eexists. split; [apply csv_ok; intros r0 [<-|I0]; [apply incl_refl | exact (Sub r0 I0)]|].
  unfold csv_writer. change (first :: before ++ r :: after) with ((first :: before) ++ r :: after).
  rewrite (write_rows_err _ (first :: before) r after k); [reflexivity | | exact I | exact N].
  intros r0 [<-|I0] k0 Ik; [exact Ik | exact (Sub r0 I0 k0 Ik)].
Qed.
End Write.

(** * The tables of the scripts *)
Ltac nocr := intros HIn; cbn in HIn; repeat (destruct HIn as [HIn|HIn]; [discriminate HIn|]); exact HIn.
Lemma p2p_dict_keys : forall A r, map fst (p2p_dict A r) = [lit "distance_km"; lit "reliability_level_%"; lit "confidence_level_%"; lit "propagation_loss_dB"].
Proof. intros A (((d, qr), qc), l). reflexivity. Qed.
Lemma area_dict_keys : forall A r, map fst (area_dict A r) = [lit "distance_km"; lit "confidence_level_%"; lit "propagation_loss_dB"].
Proof. intros A ((d, c), l). reflexivity. Qed.
Lemma p2p_cells : forall A (show : num A -> text) d qr qc l,
  cells show [lit "distance_km"; lit "reliability_level_%"; lit "confidence_level_%"; lit "propagation_loss_dB"] (p2p_dict A (d, qr, qc, l)) = [show d; show qr; show qc; show l].
Proof. reflexivity. Qed.
Lemma area_cells : forall A (show : num A -> text) d c l,
  cells show [lit "distance_km"; lit "confidence_level_%"; lit "propagation_loss_dB"] (area_dict A (d, c, l)) = [show d; show c; show l].
Proof. reflexivity. Qed.

Lemma p2p_file_rows : forall A (show : num A -> text) old rows, (forall x, no_cr (show x)) -> rows <> [] ->
  exists t, csv_writer show old (map (p2p_dict A) rows) = (Some t, Ok tt) /\ read_csv t = Some ([lit "distance_km"; lit "reliability_level_%"; lit "confidence_level_%"; lit "propagation_loss_dB"] ::
      map (fun r => let '(d, qr, qc, l) := r in [show d; show qr; show qc; show l]) rows).
Proof.
  intros A show old rows NC NE. destruct rows as [|r0 rows]; [contradiction NE; reflexivity|].
  eexists. split; [cbn [map]; apply csv_ok|].
  - intros r I. change (p2p_dict A r0 :: map (p2p_dict A) rows) with (map (p2p_dict A) (r0 :: rows)) in I. apply in_map_iff in I. destruct I as (x & <- & _). rewrite !p2p_dict_keys. apply incl_refl.
  - rewrite p2p_dict_keys. rewrite written_read.
    + match goal with |- Some (_ :: ?b) = Some (_ :: ?c) => cut (b = c); [intros ->; reflexivity|] end. change (p2p_dict A r0 :: map (p2p_dict A) rows) with (map (p2p_dict A) (r0 :: rows)). rewrite map_map. apply map_ext. intros (((d, qr), qc), l). apply p2p_cells.
    + discriminate.
    + repeat constructor; nocr.
    + intros; apply NC.
Qed.
Lemma area_file_rows : forall A (show : num A -> text) old rows, (forall x, no_cr (show x)) -> rows <> [] ->
  exists t, csv_writer show old (map (area_dict A) rows) = (Some t, Ok tt) /\ read_csv t = Some ([lit "distance_km"; lit "confidence_level_%"; lit "propagation_loss_dB"] ::
      map (fun r => let '(d, c, l) := r in [show d; show c; show l]) rows).
Proof.
  intros A show old rows NC NE. destruct rows as [|r0 rows]; [contradiction NE; reflexivity|].
  eexists. split; [cbn [map]; apply csv_ok|].
  - intros r I. change (area_dict A r0 :: map (area_dict A) rows) with (map (area_dict A) (r0 :: rows)) in I. apply in_map_iff in I. destruct I as (x & <- & _). rewrite !area_dict_keys. apply incl_refl.
  - rewrite area_dict_keys. rewrite written_read.
    + match goal with |- Some (_ :: ?b) = Some (_ :: ?c) => cut (b = c); [intros ->; reflexivity|] end. change (area_dict A r0 :: map (area_dict A) rows) with (map (area_dict A) (r0 :: rows)). rewrite map_map. apply map_ext. intros ((d, c), l). apply area_cells.
    + discriminate.
    + repeat constructor; nocr.
    + intros; apply NC.
Qed.
Lemma p2p_file : forall A (show : num A -> text) old z p out, (forall x, no_cr (show x)) -> itmlogic_p2p A z p = Ok out ->
  exists t, csv_writer show old (map (p2p_dict A) (out_rows A out)) = (Some t, Ok tt) /\ read_csv t = Some ([lit "distance_km"; lit "reliability_level_%"; lit "confidence_level_%"; lit "propagation_loss_dB"] ::
      map (fun r => let '(d, qr, qc, l) := r in [show d; show qr; show qc; show l]) (out_rows A out)).
Proof.
  intros A show old z p out NC H. apply p2p_file_rows; [exact NC|]. intro E.
  destruct (p2p_out_rows _ _ _ _ H) as (q & d & _ & _ & _ & F). rewrite E in F. inversion F.
Qed.
Lemma area_file : forall (show : R -> text) old c p rows, (forall x, no_cr (show x)) -> cfg_QC RA c <> [] -> itmlogic_area_cfg RA c p = Ok rows ->
  exists t, csv_writer show old (map (area_dict RA) rows) = (Some t, Ok tt) /\ read_csv t = Some ([lit "distance_km"; lit "confidence_level_%"; lit "propagation_loss_dB"] ::
      map (fun r => let '(d, c, l) := r in [show d; show c; show l]) rows).
Proof.
  intros show old c p rows NC NQ H. apply (area_file_rows RA show old rows); [exact NC|]. intros ->.
  destruct (area_grid_spec _ _ _ H) as (_ & _ & n1 & n2 & L & _ & E). cbn [map] in E. destruct n1 as [|n1]; [lia|].
  unfold area_distances in E. cbn [seq map app flat_map] in E. destruct (cfg_QC RA c) as [|x l]; [apply NQ; reflexivity | discriminate E].
Qed.
