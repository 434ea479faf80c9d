(** Proofs about csv.reader. *)
From Coq Require Import Lia.
From Verif Require Import SpecReader SpecCsv PfCsv Reader.
Open Scope Z_scope.

Ltac zeqb := repeat match goal with
  | |- context [?a =? ?b] => first [ replace (a =? b) with false by (symmetry; apply Z.eqb_neq; first [assumption | unfold lf, cr, comma, quote, nul in *; lia | congruence])
                                   | replace (a =? b) with true by (symmetry; apply Z.eqb_eq; first [assumption | reflexivity | unfold lf, cr, comma, quote, nul in *; lia]) ]
  end.

Lemma universal_nocr t : ~ In 13 t -> universal t = t.
Proof.
  induction t as [|c l IH]; intro N; [reflexivity|]. cbn. assert (c <> cr) by (intro; subst; apply N; left; reflexivity).
  zeqb. rewrite IH; [reflexivity|]. intro; apply N; right; assumption.
Qed.
Lemma universal_app l t : ~ In 13 l -> universal (l ++ t) = l ++ universal t.
Proof.
  induction l as [|c l IH]; intro N; [reflexivity|]. cbn. assert (c <> cr) by (intro; subst; apply N; left; reflexivity).
  zeqb. rewrite IH; [reflexivity|]. intro; apply N; right; assumption.
Qed.
Lemma universal_lf t : universal (lf :: t) = lf :: universal t.
Proof. reflexivity. Qed.
Lemma universal_crlf t : universal (cr :: lf :: t) = lf :: universal t.
Proof. reflexivity. Qed.
Lemma universal_cr t : match t with c :: _ => c <> lf | [] => True end -> universal (cr :: t) = lf :: universal t.
Proof. destruct t as [|c l]; intro N; [reflexivity|]. cbn [universal]. zeqb. reflexivity. Qed.

Lemma universal_file e lines last : line_ending e -> Forall plain_line (lines ++ [last]) ->
  universal (file_of e lines last) = file_of [10] lines last.
Proof.
  intros E F. unfold file_of. induction lines as [|l ls IH]; cbn.
  - apply universal_nocr. inversion F; subst. apply H1.
  - inversion F as [|? ? P F']; subst. rewrite <- !app_assoc. rewrite universal_app by apply P. f_equal. cbn [app].
    specialize (IH F'). destruct E as [E|[E|E]]; subst e; cbn [app].
    + rewrite universal_lf. f_equal. exact IH.
    + rewrite universal_cr; [f_equal; exact IH|].
      destruct ls as [|l' ls]; cbn.
      * destruct last as [|c t]; [exact I|]. inversion F' as [|? ? (_ & _ & P' & _) ?]; subst. intro; subst. apply P'. left. reflexivity.
      * inversion F' as [|? ? P' ?]; subst. destruct l' as [|c l']; cbn; [discriminate|]. intro; subst. destruct P' as (_ & _ & P' & _). apply P'. left. reflexivity.
    + rewrite universal_crlf. f_equal. exact IH.
Qed.

(** Reading the rest of a plain line: what START_FIELD and IN_FIELD have collected so far. *)
Definition cells_from (f : text) (fs : list text) (l : text) : list text :=
  fs ++ match split_commas l with g :: r => (f ++ g) :: r | [] => [f] end.

Lemma split_nonnil l : split_commas l <> [].
Proof. destruct l as [|c l]; cbn; [discriminate|]. destruct (c =? 44); [discriminate|]. destruct (split_commas l); discriminate. Qed.

Definition mid (s : rstate) (f : text) : Prop := s = IN_FIELD \/ s = START_FIELD /\ f = [] .

Definition okc (c : Z) : Prop := c <> 34 /\ c <> 10 /\ c <> 13 /\ c <> 0.
Lemma line_rest l : forall s f fs t, mid s f -> Forall okc l -> Z.of_nat (length f) + Z.of_nat (length l) <= field_limit ->
  reader_rows (Reader s f fs) (l ++ lf :: t) = let (r, e) := reader_rows fresh_reader t in (cells_from f fs l :: r, e).
Proof.
  induction l as [|c l IH]; intros s f fs t M K B.
  - cbn [app]. unfold cells_from. cbn [split_commas]. cbn [reader_rows]. change (lf =? nul) with false. cbv iota.
    assert (Q : process_char (Reader s f fs) (Some lf) = Some (Reader EAT_CRNL [] (fs ++ [f]))) by (destruct M as [M|[M M']]; subst; reflexivity).
    rewrite Q. change (lf =? lf) with true. cbn [orb process_char r_state r_field r_fields]. rewrite app_nil_r. reflexivity.
  - inversion K as [|? ? (K1 & K2 & K3 & K4) K']; subst. change (length (c :: l)) with (S (length l)) in B. rewrite Nat2Z.inj_succ in B.
    cbn [app reader_rows]. zeqb. cbv iota.
    assert (Q : process_char (Reader s f fs) (Some c) = if c =? comma then Some (Reader START_FIELD [] (fs ++ [f])) else Some (Reader IN_FIELD (f ++ [c]) fs)).
    { unfold process_char, start_field, add_char, is_break. cbn [r_state r_field r_fields]. destruct M as [M|[M M']]; subst s; cbn [r_state]; zeqb; cbn [orb]; cbv iota;
      destruct (c =? comma); try reflexivity; cbn [r_field r_fields]; (replace (field_limit <=? Z.of_nat (length f)) with false by (symmetry; apply Z.leb_gt; lia)); reflexivity. }
    rewrite Q. replace (match l ++ lf :: t with [] => true | _ => false end) with false by (destruct l; reflexivity).
    destruct (c =? comma) eqn:C; cbn [orb]; cbv iota.
    + zeqb. cbv iota. rewrite IH; [|right; split; reflexivity|exact K'|cbn; lia]. unfold cells_from. cbn [split_commas]. change 44 with comma. rewrite C.
      destruct (split_commas l) eqn:S; [destruct (split_nonnil l S)|]. cbn [app]. rewrite <- app_assoc, app_nil_r. reflexivity.
    + zeqb. cbv iota. rewrite IH; [|left; reflexivity|exact K'|rewrite app_length; cbn; lia]. unfold cells_from. cbn [split_commas]. change 44 with comma. rewrite C.
      destruct (split_commas l) eqn:S; [destruct (split_nonnil l S)|]. rewrite <- app_assoc. reflexivity.
Qed.
Lemma last_rest l : forall s f fs, mid s f -> l <> [] -> Forall okc l -> Z.of_nat (length f) + Z.of_nat (length l) <= field_limit ->
  reader_rows (Reader s f fs) l = ([cells_from f fs l], false).
Proof.
  induction l as [|c l IH]; intros s f fs M N K B; [congruence|].
  inversion K as [|? ? (K1 & K2 & K3 & K4) K']; subst. change (length (c :: l)) with (S (length l)) in B. rewrite Nat2Z.inj_succ in B.
  cbn [reader_rows]. zeqb. cbv iota.
  assert (Q : process_char (Reader s f fs) (Some c) = if c =? comma then Some (Reader START_FIELD [] (fs ++ [f])) else Some (Reader IN_FIELD (f ++ [c]) fs)).
  { unfold process_char, start_field, add_char, is_break. cbn [r_state r_field r_fields]. destruct M as [M|[M M']]; subst s; cbn [r_state]; zeqb; cbn [orb]; cbv iota;
    destruct (c =? comma); try reflexivity; cbn [r_field r_fields]; (replace (field_limit <=? Z.of_nat (length f)) with false by (symmetry; apply Z.leb_gt; lia)); reflexivity. }
  rewrite Q. destruct l as [|d l].
  - unfold cells_from. cbn [split_commas]. change 44 with comma. destruct (c =? comma); cbn; [rewrite <- app_assoc; rewrite app_nil_r; reflexivity|reflexivity].
  - destruct (c =? comma) eqn:C; cbn [orb]; zeqb; cbn [orb]; cbv iota.
    + rewrite IH; [|right; split; reflexivity|discriminate|exact K'|cbn [length] in *; lia]. unfold cells_from. cbn [split_commas]. change 44 with comma. rewrite C. fold (split_commas (d :: l)).
      change (if d =? comma then [] :: split_commas l else match split_commas l with [] => [[d]] | f0 :: r => (d :: f0) :: r end) with (split_commas (d :: l)).
      destruct (split_commas (d :: l)) eqn:S; [destruct (split_nonnil _ S)|]. cbn [app]. rewrite <- app_assoc, app_nil_r. reflexivity.
    + rewrite IH; [|left; reflexivity|discriminate|exact K'|rewrite app_length; cbn [length] in *; lia]. unfold cells_from. set (dl := d :: l). cbn [split_commas]. change 44 with comma. rewrite C.
      destruct (split_commas dl) eqn:S; [destruct (split_nonnil _ S)|]. rewrite <- app_assoc. reflexivity.
Qed.

Lemma start_record c t : is_break (Some c) = false -> reader_rows fresh_reader (c :: t) = reader_rows (Reader START_FIELD [] []) (c :: t).
Proof.
  intro B. cbn [reader_rows]. destruct (c =? nul); [reflexivity|].
  replace (process_char fresh_reader (Some c)) with (process_char (Reader START_FIELD [] []) (Some c)); [reflexivity|].
  unfold process_char, fresh_reader. cbn [r_state]. rewrite B. reflexivity.
Qed.
Lemma plain_okc l : plain_line l -> Forall okc l /\ Z.of_nat (length l) <= field_limit.
Proof.
  intros (B & N1 & N2 & N3 & N4). split; [|exact B]. apply Forall_forall. intros c H. unfold okc. repeat split; intro; subst; contradiction.
Qed.
Definition row_of (l : text) : list text := match l with [] => [] | _ => split_commas l end.
Lemma cells_from_nil l : cells_from [] [] l = split_commas l.
Proof. unfold cells_from. cbn. destruct (split_commas l) eqn:S; [destruct (split_nonnil _ S)|reflexivity]. Qed.
Lemma line_row l t : plain_line l -> reader_rows fresh_reader (l ++ lf :: t) = let (r, e) := reader_rows fresh_reader t in (row_of l :: r, e).
Proof.
  intro P. destruct (plain_okc l P) as [K B]. destruct l as [|c l].
  - cbn [app reader_rows]. change (lf =? nul) with false. cbn [process_char fresh_reader r_state is_break orb r_field r_fields]. reflexivity.
  - cbn [app]. inversion K as [|? ? (K1 & K2 & K3 & K4) K']; subst. rewrite start_record by (unfold is_break; zeqb; reflexivity).
    change (c :: l ++ lf :: t) with ((c :: l) ++ lf :: t). rewrite line_rest; [|right; split; reflexivity|exact K|cbn [length] in *; lia].
    rewrite cells_from_nil. reflexivity.
Qed.
Lemma last_row l : plain_line l -> reader_rows fresh_reader l = (match l with [] => [] | _ => [row_of l] end, false).
Proof.
  intro P. destruct (plain_okc l P) as [K B]. destruct l as [|c l]; [reflexivity|]. inversion K as [|? ? (K1 & K2 & K3 & K4) K']; subst.
  rewrite start_record by (unfold is_break; zeqb; reflexivity). rewrite last_rest; [|right; split; reflexivity|discriminate|exact K|cbn [length] in *; lia].
  rewrite cells_from_nil. reflexivity.
Qed.
Lemma plain_rows e lines last : line_ending e -> Forall plain_line (lines ++ [last]) ->
  csv_reader (file_of e lines last) = (map row_of (lines ++ match last with [] => [] | _ => [last] end), false).
Proof.
  intros E F. unfold csv_reader. rewrite universal_file by assumption. clear E. induction lines as [|l ls IH].
  - cbn in *. inversion F; subst. rewrite last_row by assumption. destruct last; reflexivity.
  - inversion F as [|? ? P F']; subst. specialize (IH F'). unfold file_of in *. cbn [map concat app]. rewrite <- !app_assoc. cbn [app].
    change 10 with lf. rewrite line_row by exact P. change lf with 10. rewrite IH. reflexivity.
Qed.

(** Quoted fields and fields with line feeds: every well-formed file. *)
Definition nonblank (r : list text) : bool := match r with [] => false | _ => true end.
Definition st (s : place) (rec : list text) : rstate :=
  match s with
  | StartOfField => match rec with [] => START_RECORD | _ => START_FIELD end
  | InField => IN_FIELD | InQuotes => IN_QUOTED_FIELD | AfterQuote => QUOTE_IN_QUOTED_FIELD
  end.
Lemma field_kept : forall t s f rec recs, s <> StartOfField -> read_from s f rec t = Some recs -> exists g, In (f ++ g) (concat recs).
Proof.
  assert (E : forall f rec o recs, match o with Some l => Some ((rec ++ [f]) :: l) | None => None end = Some recs -> exists g : list Z, In (f ++ g) (concat recs)).
  { intros f rec o recs H. destruct o; [|discriminate]. injection H as <-. exists []. rewrite app_nil_r. cbn. apply in_or_app. left. apply in_or_app. right. left. reflexivity. }
  assert (K : forall t f rec recs, In f rec -> read_from StartOfField [] rec t = Some recs -> In f (concat recs)).
  { assert (K : forall t s g rec recs f, In f rec -> read_from s g rec t = Some recs -> In f (concat recs)).
    { assert (E' : forall f g rec o recs, In f rec -> match o with Some l => Some ((rec ++ [g]) :: l) | None => None end = Some recs -> In (A := list Z) f (concat recs)).
      { intros f g rec o recs I H. destruct o; [|discriminate]. injection H as <-. cbn. apply in_or_app. left. apply in_or_app. left. exact I. }
      induction t as [|c t IH]; intros s g rec recs f I H.
      - cbn in H. destruct s; try discriminate. destruct rec; [destruct I|discriminate].
      - cbn [read_from] in H. destruct s.
        + destruct (c =? 34); [exact (IH _ _ _ _ _ I H)|]. destruct (c =? 44); [refine (IH _ _ _ _ _ _ H); apply in_or_app; left; exact I|].
          destruct (c =? 10). { destruct rec; [destruct I|]. exact (E' _ _ _ _ _ I H). }
          destruct (c =? 13); [discriminate|]. exact (IH _ _ _ _ _ I H).
        + destruct (c =? 44); [refine (IH _ _ _ _ _ _ H); apply in_or_app; left; exact I|]. destruct (c =? 10); [exact (E' _ _ _ _ _ I H)|].
          destruct ((c =? 34) || (c =? 13)); [discriminate|]. exact (IH _ _ _ _ _ I H).
        + destruct (c =? 34); exact (IH _ _ _ _ _ I H).
        + destruct (c =? 34); [exact (IH _ _ _ _ _ I H)|]. destruct (c =? 44); [refine (IH _ _ _ _ _ _ H); apply in_or_app; left; exact I|].
          destruct (c =? 10); [exact (E' _ _ _ _ _ I H)|discriminate]. }
    intros t f rec recs I H. exact (K t _ _ _ _ f I H). }
  assert (EF : forall t f rec recs, read_from StartOfField [] (rec ++ [f]) t = Some recs -> exists g : list Z, In (f ++ g) (concat recs)).
  { intros t f rec recs H. exists []. rewrite app_nil_r. refine (K _ _ _ _ _ H). apply in_or_app. right. left. reflexivity. }
  assert (X : forall f c recs, (exists g : list Z, In ((f ++ [c]) ++ g) (concat recs)) -> exists g : list Z, In (f ++ g) (concat recs)).
  { intros f c recs [g H]. exists (c :: g). rewrite <- app_assoc in H. exact H. }
  induction t as [|c t IH]; intros s f rec recs N H.
  - cbn in H. destruct s; try discriminate. congruence.
  - cbn [read_from] in H. destruct s; [congruence| | |].
    + destruct (c =? 44); [exact (EF _ _ _ _ H)|]. destruct (c =? 10); [exact (E _ _ _ _ H)|]. destruct ((c =? 34) || (c =? 13)); [discriminate|].
      apply X with c. (refine (IH _ _ _ _ _ H); discriminate).
    + destruct (c =? 34); [(refine (IH _ _ _ _ _ H); discriminate)|]. apply X with c. (refine (IH _ _ _ _ _ H); discriminate).
    + destruct (c =? 34); [apply X with 34; (refine (IH _ _ _ _ _ H); discriminate)|]. destruct (c =? 44); [exact (EF _ _ _ _ H)|].
      destruct (c =? 10); [exact (E _ _ _ _ H)|discriminate].
Qed.
Definition within (recs : list (list text)) : Prop := Forall (fun f => Z.of_nat (length f) <= field_limit) (concat recs).
Lemma room t s f c rec recs : within recs -> s <> StartOfField -> read_from s (f ++ [c]) rec t = Some recs -> forall s' fs, add_char s' c (Reader (st s rec) f fs) = Some (Reader s' (f ++ [c]) fs).
Proof.
  intros W N H s' fs. destruct (field_kept _ _ _ _ _ N H) as [g G]. unfold within in W. rewrite Forall_forall in W. specialize (W _ G). rewrite !app_length in W. cbn [length] in W.
  unfold add_char. cbn [r_field]. rewrite (proj2 (Z.leb_gt _ _)) by lia. reflexivity.
Qed.
Lemma within_tail r recs : within (r :: recs) -> within recs.
Proof. unfold within. cbn. rewrite Forall_app. tauto. Qed.

Lemma grammar_rows : forall t s f rec recs, (s = StartOfField -> f = []) -> read_from s f rec t = Some recs -> ~ In 0 t -> ~ In 13 t -> within recs ->
  exists rows, reader_rows (Reader (st s rec) f rec) t = (rows, false) /\ filter nonblank rows = recs.
Proof.
  assert (NN : forall (rec : list text) f, exists x y, rec ++ [f] = x :: y) by (intros [|x rec] f; cbn; eauto).
  assert (SF : forall t f (rec : list text) recs, (forall s f rec recs, (s = StartOfField -> f = []) -> read_from s f rec t = Some recs -> ~ In 0 t -> ~ In 13 t -> within recs ->
      exists rows, reader_rows (Reader (st s rec) f rec) t = (rows, false) /\ filter nonblank rows = recs) ->
    read_from StartOfField [] (rec ++ [f]) t = Some recs -> ~ In 0 t -> ~ In 13 t -> within recs ->
    t <> [] /\ exists rows, reader_rows (Reader START_FIELD [] (rec ++ [f])) t = (rows, false) /\ filter nonblank rows = recs).
  { intros t f rec recs IH H N0 N13 W. destruct (NN rec f) as (x & y & E). split.
    - intro; subst t. rewrite E in H. discriminate H.
    - destruct (IH StartOfField [] (rec ++ [f]) recs (fun _ => eq_refl) H N0 N13 W) as (rows & R & F). rewrite E in *. cbn [st] in R. eauto. }
  assert (ER : forall t f (rec : list text) recs, (forall s f rec recs, (s = StartOfField -> f = []) -> read_from s f rec t = Some recs -> ~ In 0 t -> ~ In 13 t -> within recs ->
      exists rows, reader_rows (Reader (st s rec) f rec) t = (rows, false) /\ filter nonblank rows = recs) ->
    match read_from StartOfField [] [] t with Some l => Some ((rec ++ [f]) :: l) | None => None end = Some recs -> ~ In 0 t -> ~ In 13 t -> within recs ->
    exists rows, (let (l, e) := reader_rows fresh_reader t in ((rec ++ [f]) :: l, e)) = (rows, false) /\ filter nonblank rows = recs).
  { intros t f rec recs IH H N0 N13 W. destruct (read_from StartOfField [] [] t) as [l|] eqn:Q; [|discriminate]. injection H as <-. apply within_tail in W.
    destruct (IH _ _ _ _ (fun _ => eq_refl) Q N0 N13 W) as (rows & R & F). change (reader_rows fresh_reader t = (rows, false)) in R. rewrite R. eexists. split; [reflexivity|].
    destruct (NN rec f) as (x & y & E). rewrite E. cbn. rewrite F. reflexivity. }
  induction t as [|c t IH]; intros s f rec recs Z H N0 N13 W.
  - cbn in H. destruct s; try discriminate. destruct rec; [|discriminate]. injection H as <-. rewrite (Z eq_refl). exists []. split; reflexivity.
  - assert (C0 : c <> 0) by (intro; subst; apply N0; left; reflexivity). assert (C13 : c <> 13) by (intro; subst; apply N13; left; reflexivity).
    assert (N0' : ~ In 0 t) by (intro; apply N0; right; assumption). assert (N13' : ~ In 13 t) by (intro; apply N13; right; assumption).
    cbn [read_from] in H. cbn [reader_rows]. replace (c =? nul) with false by (symmetry; apply Z.eqb_neq; exact C0). cbv iota.
    assert (B13 : (c =? cr) = false) by (apply Z.eqb_neq; exact C13).
    assert (GO : forall s' f' rec', process_char (Reader (st s rec) f rec) (Some c) = Some (Reader (st s' rec') f' rec') ->
       c <> 10 -> (s' = StartOfField -> f' = [] /\ rec' <> []) -> read_from s' f' rec' t = Some recs ->
       exists rows, match process_char (Reader (st s rec) f rec) (Some c) with
         | Some r => if (c =? lf) || match t with [] => true | _ => false end then
            match process_char r None with Some r => match r_state r with START_RECORD => let (l, e) := reader_rows fresh_reader t in (r_fields r :: l, e) | _ => reader_rows r t end | None => ([], true) end
            else reader_rows r t
         | None => ([], true) end = (rows, false) /\ filter nonblank rows = recs).
    { intros s' f' rec' P C10 S' H'. rewrite P. replace (c =? lf) with false by (symmetry; apply Z.eqb_neq; exact C10).
      destruct t as [|d t]. { exfalso. cbn in H'. destruct s'; try discriminate. destruct (S' eq_refl) as [_ S'']. destruct rec'; [congruence|discriminate]. }
      cbn [orb]. apply (IH s' f' rec' recs); try assumption. intro; apply S'; assumption. }
    assert (NE : rec ++ [f] <> []) by (destruct rec; discriminate).
    assert (SFst : forall r : list text, r <> [] -> st StartOfField r = START_FIELD) by (intros [|]; [congruence|reflexivity]).
    destruct s.
    + rewrite (Z eq_refl) in *. clear Z. destruct (c =? 34) eqn:C34.
      { apply Z.eqb_eq in C34. subst c. apply (GO InQuotes [] rec); try reflexivity; try discriminate; try exact H. destruct rec; reflexivity. }
      destruct (c =? 44) eqn:C44.
      { apply Z.eqb_eq in C44. subst c. apply (GO StartOfField [] (rec ++ [[]])); try reflexivity; try discriminate; try exact H; [rewrite (SFst _ NE); destruct rec; reflexivity|intros _; split; [reflexivity|exact NE]]. }
      destruct (c =? 10) eqn:C10.
      { apply Z.eqb_eq in C10. subst c. destruct rec as [|r0 rec].
        - destruct (IH StartOfField [] [] recs (fun _ => eq_refl) H N0' N13' W) as (rows & R & F). change (reader_rows fresh_reader t = (rows, false)) in R.
          cbn [st process_char r_state is_break orb r_field r_fields]. change (10 =? lf) with true. cbn [orb process_char r_state r_field r_fields]. rewrite R. eexists. split; [reflexivity|]. cbn. exact F.
        - destruct (ER t [] (r0 :: rec) recs IH H N0' N13' W) as (rows & R & F). cbn [st process_char r_state start_field is_break orb]. change (10 =? lf) with true. cbn [orb after_break save_field process_char r_state r_field r_fields].
          exists rows. split; assumption. }
      destruct (c =? 13) eqn:Q13; [discriminate|]. clear Q13.
      assert (AC := room t InField [] c rec recs W ltac:(discriminate) H). cbn [app] in AC.
      apply (GO InField [c] rec); try reflexivity; try discriminate; try exact H; [|apply Z.eqb_neq; exact C10].
      cbn [st]. unfold process_char, start_field, is_break. change 34 with quote in C34. change 44 with comma in C44. change 10 with lf in C10.
      destruct rec; cbn [st r_state]; rewrite ?C10, ?B13, ?C34, ?C44; cbn [orb]; apply AC.
    + clear Z. change (st InField rec) with IN_FIELD in *. destruct (c =? 44) eqn:C44.
      { apply Z.eqb_eq in C44. subst c. apply (GO StartOfField [] (rec ++ [f])); try reflexivity; try discriminate; try exact H; [rewrite (SFst _ NE); reflexivity|intros _; split; [reflexivity|exact NE]]. }
      destruct (c =? 10) eqn:C10.
      { apply Z.eqb_eq in C10. subst c. destruct (ER t f rec recs IH H N0' N13' W) as (rows & R & F). cbn [st process_char r_state is_break orb]. change (10 =? lf) with true. cbn [orb after_break save_field process_char r_state r_field r_fields].
        exists rows. split; assumption. }
      destruct (c =? 34) eqn:C34; [discriminate|]. rewrite (proj2 (Z.eqb_neq c 13) C13) in H. cbn [orb] in H.
      assert (AC := room t InField f c rec recs W ltac:(discriminate) H).
      apply (GO InField (f ++ [c]) rec); try reflexivity; try discriminate; try exact H; [|apply Z.eqb_neq; exact C10].
      unfold process_char, is_break. cbn [r_state]. change 44 with comma in C44. change 10 with lf in C10. rewrite C10, B13, C44. cbn [orb]. apply AC.
    + clear Z. change (st InQuotes rec) with IN_QUOTED_FIELD in *. destruct (c =? 34) eqn:C34.
      { apply Z.eqb_eq in C34. subst c. apply (GO AfterQuote f rec); try reflexivity; try discriminate; exact H. }
      assert (AC := room t InQuotes f c rec recs W ltac:(discriminate) H). destruct (c =? 10) eqn:C10.
      * apply Z.eqb_eq in C10. subst c. cbn [process_char r_state]. change (10 =? quote) with false. cbv iota. cbn [st] in AC. rewrite AC. change (10 =? lf) with true. cbn [orb process_char r_state].
        apply (IH InQuotes (f ++ [10]) rec recs); try assumption. discriminate.
      * apply (GO InQuotes (f ++ [c]) rec); try reflexivity; try discriminate; try exact H; [|apply Z.eqb_neq; exact C10].
        unfold process_char. cbn [r_state]. change 34 with quote in C34. rewrite C34. apply AC.
    + clear Z. change (st AfterQuote rec) with QUOTE_IN_QUOTED_FIELD in *. destruct (c =? 34) eqn:C34.
      { apply Z.eqb_eq in C34. subst c. assert (AC := room t InQuotes f 34 rec recs W ltac:(discriminate) H). apply (GO InQuotes (f ++ [34]) rec); try reflexivity; try discriminate; try exact H. apply AC. }
      destruct (c =? 44) eqn:C44.
      { apply Z.eqb_eq in C44. subst c. apply (GO StartOfField [] (rec ++ [f])); try reflexivity; try discriminate; try exact H; [rewrite (SFst _ NE); reflexivity|intros _; split; [reflexivity|exact NE]]. }
      destruct (c =? 10) eqn:C10; [|discriminate].
      apply Z.eqb_eq in C10. subst c. destruct (ER t f rec recs IH H N0' N13' W) as (rows & R & F). cbn [st process_char r_state is_break orb]. change (10 =? lf) with true. change (10 =? quote) with false. change (10 =? comma) with false.
      cbn [orb after_break save_field process_char r_state r_field r_fields]. exists rows. split; assumption.
Qed.
Lemma grammar t recs : ~ In 0 t -> no_cr t -> read_csv t = Some recs -> within recs -> snd (csv_reader t) = false /\ filter nonblank (fst (csv_reader t)) = recs.
Proof.
  intros N0 N13 H W. unfold csv_reader. rewrite universal_nocr by exact N13. destruct (grammar_rows t StartOfField [] [] recs (fun _ => eq_refl) H N0 N13 W) as (rows & R & F).
  change (reader_rows fresh_reader t = (rows, false)) in R. rewrite R. split; [reflexivity|exact F].
Qed.
