(** Proofs about float() of a text. *)
From Coq Require Import Lia Lra.
From Verif Require Import SpecReader RInst Reader Arith.
Open Scope Z_scope.

Lemma space_white c : is_space c = true <-> (c = 32 \/ 9 <= c <= 13).
Proof. unfold is_space. rewrite orb_true_iff, andb_true_iff, Z.eqb_eq, !Z.leb_le. reflexivity. Qed.
Lemma digit_char c : is_digit c = true <-> 48 <= c <= 57.
Proof. unfold is_digit. rewrite andb_true_iff, !Z.leb_le. reflexivity. Qed.

Lemma drop_white a t : white a -> drop_spaces (a ++ t) = drop_spaces t.
Proof. intro W. induction W as [|c a H W IH]; [reflexivity|]. cbn. rewrite (proj2 (space_white c) H). exact IH. Qed.
Definition inked (t : text) : Prop := Forall (fun c => is_space c = false) t.
Lemma drop_inked t u : t <> [] -> inked t -> drop_spaces (t ++ u) = t ++ u.
Proof. intros N I. destruct I as [|c t H I]; [congruence|]. cbn. rewrite H. reflexivity. Qed.
Lemma strip_white a t b : white a -> white b -> t <> [] -> inked t -> strip (a ++ t ++ b) = t.
Proof.
  intros Wa Wb N I. unfold strip. rewrite drop_white by exact Wa. rewrite drop_inked by assumption. rewrite rev_app_distr. rewrite drop_white by (apply Forall_rev; exact Wb).
  rewrite <- (app_nil_r (rev t)). rewrite drop_inked; [rewrite app_nil_r; apply rev_involutive| |apply Forall_rev; exact I].
  intro H. apply N. rewrite <- (rev_involutive t), H. reflexivity.
Qed.
Lemma drop_inv t : exists a, white a /\ t = a ++ drop_spaces t.
Proof.
  induction t as [|c t (a & W & E)]; [exists []; split; [constructor|reflexivity]|]. cbn. destruct (is_space c) eqn:S.
  - exists (c :: a). split; [constructor; [apply space_white; exact S|exact W]|cbn; rewrite <- E; reflexivity].
  - exists []. split; [constructor|reflexivity].
Qed.
Lemma strip_inv t : exists a b, white a /\ white b /\ t = a ++ strip t ++ b.
Proof.
  unfold strip. destruct (drop_inv t) as (a & Wa & Ea). destruct (drop_inv (rev (drop_spaces t))) as (b & Wb & Eb).
  exists a, (rev b). split; [exact Wa|]. split; [apply Forall_rev; exact Wb|].
  rewrite <- rev_app_distr, <- Eb, rev_involutive. exact Ea.
Qed.

Lemma no_underscores_id t : forall p, p <> 95 -> ~ In 95 t -> no_underscores p t = Some t.
Proof.
  induction t as [|c t IH]; intros p P N; cbn.
  - rewrite (proj2 (Z.eqb_neq _ _) P). reflexivity.
  - assert (C : c <> 95) by (intro; subst; apply N; left; reflexivity). rewrite (proj2 (Z.eqb_neq _ _) C), (proj2 (Z.eqb_neq _ _) P). cbn [andb].
    rewrite IH; [reflexivity|exact C|intro; apply N; right; assumption].
Qed.

Definition no_digit_first (t : text) : Prop := match t with c :: _ => is_digit c = false | [] => True end.
Lemma take_digits_text l : forall n k t, digits l -> no_digit_first t -> take_digits n k (digits_text l ++ t) = (whole_value n l, k + Z.of_nat (length l), t).
Proof.
  induction l as [|d l IH]; intros n k t D T.
  - cbn [digits_text map app length whole_value]. replace (k + Z.of_nat 0) with k by lia. destruct t as [|c t]; [reflexivity|]. cbn in T |- *. rewrite T. reflexivity.
  - inversion D; subst. cbn [digits_text map app take_digits]. rewrite (proj2 (digit_char _)) by lia. replace (48 + d - 48) with d by lia.
    fold (digits_text l). rewrite IH by assumption. cbn [whole_value length]. rewrite Nat2Z.inj_succ. f_equal. f_equal. lia.
Qed.
Lemma take_digits_inv t : forall n k n' k' u, take_digits n k t = (n', k', u) ->
  exists l, digits l /\ t = digits_text l ++ u /\ n' = whole_value n l /\ k' = k + Z.of_nat (length l) /\ no_digit_first u.
Proof.
  induction t as [|c t IH]; intros n k n' k' u H; cbn in H.
  - injection H as <- <- <-. exists []. cbn. repeat split; try constructor; lia.
  - destruct (is_digit c) eqn:D.
    + destruct (IH _ _ _ _ _ H) as (l & L & E & V & K & F). exists (c - 48 :: l). apply digit_char in D. repeat split.
      * constructor; [lia|exact L].
      * rewrite E. cbn [digits_text map app]. replace (48 + (c - 48)) with c by ring. reflexivity.
      * exact V.
      * cbn [length]. rewrite Nat2Z.inj_succ. lia.
      * exact F.
    + injection H as <- <- <-. exists []. cbn. repeat split; try constructor; try lia. exact D.
Qed.
Definition no_sign_first (t : text) : Prop := match t with c :: _ => c <> 45 /\ c <> 43 | [] => True end.
Definition is_minus (s : sign) : bool := match s with Minus => true | _ => false end.
Lemma take_sign_text s t : no_sign_first t -> take_sign (sign_text s ++ t) = (is_minus s, t).
Proof.
  intro N. destruct s; try reflexivity. cbn [sign_text app]. destruct t as [|c t]; [reflexivity|]. destruct N as [N1 N2]. cbn.
  rewrite (proj2 (Z.eqb_neq _ _) N1), (proj2 (Z.eqb_neq _ _) N2). reflexivity.
Qed.
Lemma take_sign_inv t b u : take_sign t = (b, u) -> exists s, t = sign_text s ++ u /\ b = is_minus s.
Proof.
  destruct t as [|c t]; cbn; [intro H; injection H as <- <-; exists NoSign; split; reflexivity|].
  destruct (c =? 45) eqn:E1; [apply Z.eqb_eq in E1; subst; intro H; injection H as <- <-; exists Minus; split; reflexivity|].
  destruct (c =? 43) eqn:E2; [apply Z.eqb_eq in E2; subst; intro H; injection H as <- <-; exists Plus; split; reflexivity|].
  intro H; injection H as <- <-. exists NoSign. split; reflexivity.
Qed.

Lemma whole_app l : forall n m, whole_value n (l ++ m) = whole_value (whole_value n l) m.
Proof. induction l as [|d l IH]; intros; [reflexivity|]. cbn. apply IH. Qed.

(** The text after the sign. *)
Definition body (m : numeral) : text :=
  digits_text (m_whole m) ++ match m_fraction m with Some l => 46 :: digits_text l | None => [] end ++
  match m_exponent m with Some (e, s, l) => e :: sign_text s ++ digits_text l | None => [] end.
Definition exponent_of (m : numeral) : Z := match m_exponent m with Some (_, s, l) => signed Z.opp s (whole_value 0 l) | None => 0 end.
Definition all_digits (m : numeral) : Z := whole_value 0 (m_whole m ++ fraction_digits m).

Lemma exp_part m : is_numeral m -> no_digit_first (match m_exponent m with Some (e, s, l) => e :: sign_text s ++ digits_text l | None => [] end) /\
  (match m_exponent m with Some (e, s, l) => e :: sign_text s ++ digits_text l | None => [] end <> [] -> m_exponent m <> None).
Proof.
  intros (_ & _ & _ & H). destruct (m_exponent m) as [[[e s] l]|]; cbn; [|split; [exact I|congruence]]. split; [|congruence].
  destruct H as [[H|H] _]; subst; reflexivity.
Qed.
Lemma length_nil {T} (l : list T) : Z.of_nat (length l) = 0 <-> l = [].
Proof. destruct l; cbn; split; intro; try reflexivity; try discriminate; lia. Qed.
Lemma decimal_body m : is_numeral m -> decimal (body m) = Some (all_digits m, exponent_of m - Z.of_nat (length (fraction_digits m))).
Proof.
  intro W. destruct (exp_part m W) as [X _]. destruct W as (D1 & D2 & N & E). unfold decimal, body, all_digits, exponent_of.
  set (ex := match m_exponent m with Some (e, s, l) => e :: sign_text s ++ digits_text l | None => [] end) in *.
  rewrite take_digits_text; [|exact D1|destruct (m_fraction m); [reflexivity|exact X]].
  unfold fraction_digits in *. rewrite whole_app. set (n := whole_value 0 (m_whole m)).
  assert (G : forall k' : nat, length (match m_fraction m with Some l => l | None => [] end) = k' ->
     (if 0 + Z.of_nat (length (m_whole m)) + Z.of_nat k' =? 0 then None else Some tt) = Some tt).
  { intros k' K. destruct (0 + Z.of_nat (length (m_whole m)) + Z.of_nat k' =? 0) eqn:Q; [|reflexivity]. exfalso. apply Z.eqb_eq in Q. apply N.
    assert (A : length (m_whole m) = O) by lia. assert (B : k' = O) by lia. subst k'. apply length_zero_iff_nil in A, B. rewrite A, B. reflexivity. }
  assert (M : take_fraction n (match m_fraction m with Some l => 46 :: digits_text l | None => [] end ++ ex) = (whole_value n (match m_fraction m with Some l => l | None => [] end), Z.of_nat (length (match m_fraction m with Some l => l | None => [] end)), ex)).
  { destruct (m_fraction m) as [fr|].
    - cbn [app take_fraction]. change (46 =? 46) with true. cbv iota. rewrite take_digits_text by assumption. reflexivity.
    - cbn [app length whole_value take_fraction]. unfold ex in *. destruct (m_exponent m) as [[[e s] l]|]; [|reflexivity]. destruct E as [[H|H] _]; subst e; reflexivity. }
  refine (eq_trans (f_equal (fun z : Z * Z * text => let '(n, k', t) := z in _) M) _). cbv beta iota. specialize (G _ eq_refl). destruct (_ =? 0); [discriminate G|]. clear G M.
  unfold ex. destruct (m_exponent m) as [[[e s] l]|]; [|f_equal; f_equal; lia].
  destruct E as (E & D3 & N3). replace (lower e =? 101) with true by (destruct E; subst; reflexivity).
  rewrite take_sign_text. 2:{ destruct l as [|d l]; [congruence|]. inversion D3; subst. cbn [digits_text map no_sign_first]. lia. }
  rewrite <- (app_nil_r (digits_text l)). rewrite take_digits_text; [|exact D3|exact I].
  replace (0 + Z.of_nat (length l) =? 0) with false. 2:{ symmetry. apply Z.eqb_neq. intro Q. apply N3. apply length_nil. lia. }
  destruct s; reflexivity.
Qed.
Lemma decimal_inv t n e : decimal t = Some (n, e) -> exists m, is_numeral m /\ m_sign m = NoSign /\ t = body m /\ n = all_digits m /\ e = exponent_of m - Z.of_nat (length (fraction_digits m)).
Proof.
  unfold decimal. destruct (take_digits 0 0 t) as [[n1 k1] t1] eqn:T1. destruct (take_digits_inv _ _ _ _ _ _ T1) as (l1 & D1 & E1 & V1 & K1 & F1).
  assert (P : exists fr n2 k2 t2, take_fraction n1 t1 = (n2, k2, t2) /\
     t1 = match fr with Some l => 46 :: digits_text l | None => [] end ++ t2 /\ digits (match fr with Some l => l | None => [] end) /\
     n2 = whole_value n1 (match fr with Some l => l | None => [] end) /\ k2 = Z.of_nat (length (match fr with Some l => l | None => [] end))).
  { unfold take_fraction. destruct t1 as [|c t1]; [exists None, n1, 0, []; repeat split; constructor|]. destruct (c =? 46) eqn:C.
    - apply Z.eqb_eq in C. subst c. destruct (take_digits n1 0 t1) as [[n2 k2] t2] eqn:T2. destruct (take_digits_inv _ _ _ _ _ _ T2) as (l2 & D2 & E2 & V2 & K2 & F2).
      exists (Some l2), n2, k2, t2. repeat split; try assumption. cbn. rewrite E2. reflexivity.
    - exists None, n1, 0, (c :: t1). repeat split; constructor. }
  destruct P as (fr & n2 & k2 & t2 & P & E2 & D2 & V2 & K2). rewrite P. destruct (k1 + k2 =? 0) eqn:K; [discriminate|]. apply Z.eqb_neq in K.
  assert (NN : l1 ++ match fr with Some l => l | None => [] end <> []).
  { intro Q. apply app_eq_nil in Q as [Q1 Q2]. rewrite Q2 in K2. subst l1. cbn in K1, K2. lia. }
  destruct t2 as [|c t2].
  - intro H. injection H as <- <-. exists (Numeral NoSign l1 fr None). unfold is_numeral, all_digits, exponent_of, body, fraction_digits. cbn [m_sign m_whole m_fraction m_exponent].
    rewrite whole_app. repeat split; try assumption; [rewrite E1, E2; reflexivity|congruence|lia].
  - destruct (lower c =? 101) eqn:C; [|discriminate]. destruct (take_sign t2) as [b t3] eqn:S. destruct (take_sign_inv _ _ _ S) as (s & E3 & B).
    destruct (take_digits 0 0 t3) as [[n4 k4] t4] eqn:T4. destruct (take_digits_inv _ _ _ _ _ _ T4) as (l4 & D4 & E4 & V4 & K4 & F4).
    destruct (k4 =? 0) eqn:Q; [discriminate|]. apply Z.eqb_neq in Q. destruct t4; [|discriminate]. intro H. injection H as <- <-.
    exists (Numeral NoSign l1 fr (Some (c, s, l4))). unfold is_numeral, all_digits, exponent_of, body, fraction_digits. cbn [m_sign m_whole m_fraction m_exponent].
    rewrite whole_app. repeat split; try assumption.
    + apply Z.eqb_eq in C. unfold lower in C. destruct ((65 <=? c) && (c <=? 90)) eqn:R; lia.
    + intro; subst l4. cbn in K4. lia.
    + rewrite E1, E2, E3, E4, app_nil_r. reflexivity.
    + congruence.
    + subst. destruct s; reflexivity.
Qed.

Definition numeral_char (c : Z) : Prop := 43 <= c <= 57 /\ c <> 44 /\ c <> 47 \/ c = 101 \/ c = 69.
Lemma digits_chars l : digits l -> Forall numeral_char (digits_text l).
Proof. intro D. induction D as [|d l H D IH]; constructor; [unfold numeral_char; lia|exact IH]. Qed.
Lemma sign_chars s : Forall numeral_char (sign_text s).
Proof. destruct s; repeat constructor; unfold numeral_char; lia. Qed.
Lemma body_chars m : is_numeral m -> Forall numeral_char (body m).
Proof.
  intros (D1 & D2 & N & E). unfold body. apply Forall_app. split; [apply digits_chars; exact D1|]. unfold fraction_digits in D2. apply Forall_app. split.
  - destruct (m_fraction m); [|constructor]. constructor; [unfold numeral_char; lia|apply digits_chars; exact D2].
  - destruct (m_exponent m) as [[[e s] l]|]; [|constructor]. destruct E as (E & D3 & _). constructor; [unfold numeral_char; lia|]. apply Forall_app. split; [apply sign_chars|apply digits_chars; exact D3].
Qed.
Lemma text_body m : numeral_text m = sign_text (m_sign m) ++ body m.
Proof. reflexivity. Qed.
Lemma body_first m : is_numeral m -> body m <> [] /\ no_sign_first (body m).
Proof.
  intros (D1 & D2 & N & E). unfold body. destruct (m_whole m) as [|d l].
  - cbn in N |- *. unfold fraction_digits in *. destruct (m_fraction m) as [fr|]; [|congruence]. cbn. split; [discriminate|lia].
  - inversion D1; subst. cbn [digits_text map app]. split; [discriminate|]. cbn [no_sign_first]. lia.
Qed.
Lemma numeral_clean m : is_numeral m -> numeral_text m <> [] /\ inked (numeral_text m) /\ ~ In 95 (numeral_text m) /\ Forall numeral_char (numeral_text m).
Proof.
  intro W. assert (F : Forall numeral_char (numeral_text m)) by (rewrite text_body; apply Forall_app; split; [apply sign_chars|apply body_chars; exact W]).
  repeat split; [| | |exact F].
  - rewrite text_body. destruct (sign_text (m_sign m)); [apply body_first; exact W|discriminate].
  - eapply Forall_impl; [|exact F]. intros c H. apply not_true_is_false. rewrite space_white. unfold numeral_char in H. lia.
  - intro H. rewrite Forall_forall in F. specialize (F _ H). unfold numeral_char in F. lia.
Qed.
Section Float.
Context (A : arith).
Definition numeral_num (m : numeral) : num A := signed n_opp (m_sign m) (scaled A (all_digits m) (exponent_of m - Z.of_nat (length (fraction_digits m)))).
Lemma float_numeral a m b : white a -> white b -> is_numeral m -> float_of A (a ++ numeral_text m ++ b) = Ok (numeral_num m).
Proof.
  intros Wa Wb W. destruct (numeral_clean m W) as (N & I & U & _). unfold float_of. rewrite strip_white by assumption. rewrite no_underscores_id; [|discriminate|exact U].
  rewrite text_body. rewrite take_sign_text by (apply body_first; exact W). rewrite decimal_body by exact W. unfold numeral_num. destruct (m_sign m); reflexivity.
Qed.
Lemma float_inv t x : ~ In 95 t -> float_of A t = Ok x -> exists a m b, white a /\ white b /\ is_numeral m /\ t = a ++ numeral_text m ++ b /\ x = numeral_num m.
Proof.
  intros U H. unfold float_of in H. destruct (strip_inv t) as (a & b & Wa & Wb & E). rewrite no_underscores_id in H; [|discriminate|].
  2:{ intro K. apply U. rewrite E. apply in_or_app. right. apply in_or_app. left. exact K. }
  destruct (take_sign (strip t)) as [mi u] eqn:S. destruct (take_sign_inv _ _ _ S) as (s & ES & B). destruct (decimal u) as [[n e]|] eqn:D.
  2:{ cbv zeta in H. match type of H with (if ?c then _ else _) = _ => destruct c; discriminate end. }
  destruct (decimal_inv u n e D) as (m & W & SG & EB & En & Ee). injection H as <-. exists a, (Numeral s (m_whole m) (m_fraction m) (m_exponent m)), b.
  split; [exact Wa|]. split; [exact Wb|]. split; [exact W|]. split.
  - rewrite E, ES, EB. reflexivity.
  - unfold numeral_num, all_digits, exponent_of, fraction_digits in *. cbn [m_sign m_whole m_fraction m_exponent]. subst. destruct s; reflexivity.
Qed.
End Float.

Lemma whole_fraction l : forall n, IZR (whole_value n l) = ((IZR n + fraction_value l) * powerRZ 10 (Z.of_nat (length l)))%R.
Proof.
  induction l as [|d l IH]; intro n; [cbn; lra|]. cbn [whole_value length fraction_value]. rewrite IH, Nat2Z.inj_succ. unfold Z.succ. rewrite powerRZ_add by lra. rewrite plus_IZR, mult_IZR. change (powerRZ 10 1) with (10 ^ Pos.to_nat 1)%R. replace (Pos.to_nat 1) with 1%nat by reflexivity. rewrite pow_1. field.
Qed.
Lemma scaled_value n e : scaled RA n e = (IZR n * powerRZ 10 e)%R.
Proof.
  unfold scaled. destruct (0 <=? e) eqn:E.
  - apply Z.leb_le in E. cbn [n_lit RA]. rewrite mult_IZR. rewrite <- (Z2Nat.id e E) at 2. rewrite <- pow_powerRZ. rewrite pow_IZR. rewrite Z2Nat.id by exact E. change (num RA) with R. field.
  - apply Z.leb_gt in E. cbn [n_lit RA]. rewrite Z2Pos.id by (apply Z.pow_pos_nonneg; lia). assert (E' : 0 <= - e) by lia.
    replace e with (- (- e)) at 2 by ring. rewrite powerRZ_neg'. rewrite <- (Z2Nat.id (- e) E') at 2. rewrite <- pow_powerRZ. rewrite pow_IZR. rewrite Z2Nat.id by exact E'. reflexivity.
Qed.
Lemma numeral_real m : numeral_num RA m = numeral_value m.
Proof.
  unfold numeral_num, numeral_value. rewrite scaled_value. change (@n_opp RA) with Ropp. f_equal. unfold all_digits. rewrite whole_app, whole_fraction. unfold exponent_of.
  set (k := Z.of_nat (length (fraction_digits m))). rewrite Rmult_assoc. f_equal. rewrite <- powerRZ_add by lra.
  destruct (m_exponent m) as [[[e s] l]|]; [f_equal; ring|]. replace (k + (0 - k)) with 0 by ring. reflexivity.
Qed.
Lemma float_denotes t x : ~ In 95 t -> float_of RA t = Ok x <-> denotes t x.
Proof.
  intro U. split.
  - intro H. destruct (float_inv RA t x U H) as (a & m & b & Wa & Wb & W & E & V). exists a, m, b. rewrite numeral_real in V. auto.
  - intros (a & m & b & Wa & Wb & W & E & V). subst. rewrite float_numeral by assumption. rewrite numeral_real. reflexivity.
Qed.
