(** qtile over the reals: order statistics. *)
From Coq Require Import Sorting.Permutation Sorting.Sorted.
From Verif Require Import RTac Misc.
Open Scope R_scope.

Lemma insert_perm x l : Permutation (insert_desc RA x l) (x :: l).
Proof.
  induction l as [|y l IH]; cbn [insert_desc]; [reflexivity|].
  destruct (n_ltb y x); [reflexivity|]. rewrite IH. apply perm_swap.
Qed.
Lemma fold_insert_perm a l : Permutation (fold_left (fun l x => insert_desc RA x l) a l) (a ++ l).
Proof.
  revert l; induction a as [|x a IH]; intro l; cbn [fold_left app]; [reflexivity|].
  rewrite IH, insert_perm. symmetry. apply Permutation_middle.
Qed.
Lemma sort_perm a : Permutation (sort_desc RA a) a.
Proof. unfold sort_desc. rewrite fold_insert_perm, app_nil_r. reflexivity. Qed.

Definition desc : list R -> Prop := StronglySorted Rge.
Lemma insert_desc_sorted (x : R) (l : list R) : desc l -> desc (insert_desc RA x l).
Proof.
  induction 1 as [|y l S IH F]; cbn [insert_desc]; [repeat constructor|].
  cbn [n_ltb RA]. destruct (r_ltb y x) eqn:E.
  - apply r_ltb_true in E. constructor; [constructor; assumption|]. constructor; [lra|].
    eapply Forall_impl; [|exact F]. cbn. intros; lra.
  - apply r_ltb_false in E. constructor; [exact IH|].
    apply Forall_forall. intros z I. apply (Permutation_in z (insert_perm x l)) in I. destruct I as [<-|I]; [lra|].
    rewrite Forall_forall in F. apply F. exact I.
Qed.
Lemma sort_sorted (a : list R) : desc (sort_desc RA a).
Proof.
  unfold sort_desc. assert (G : forall a l, desc l -> desc (fold_left (fun l x => insert_desc RA x l) a l)).
  { induction a0 as [|x a0 IH]; intros l S; cbn [fold_left]; [exact S|]. apply IH. apply insert_desc_sorted. exact S. }
  apply G. constructor.
Qed.
Lemma sort_length (a : list R) : length (sort_desc RA a) = length a.
Proof. apply Permutation_length, sort_perm. Qed.

(** Two descending lists with the same elements are equal. *)
Lemma desc_unique (l l' : list R) : desc l -> desc l' -> Permutation l l' -> l = l'.
Proof.
  revert l'; induction l as [|x l IH]; intros l' S S' P.
  - apply Permutation_nil in P. auto.
  - destruct l' as [|y l']; [symmetry in P; apply Permutation_nil in P; discriminate|].
    inversion S as [|? ? S1 F1]; inversion S' as [|? ? S2 F2]; subst. rewrite Forall_forall in F1, F2.
    assert (x = y).
    { assert (Ix : In x (y :: l')) by (eapply Permutation_in; [exact P | left; reflexivity]).
      assert (Iy : In y (x :: l)) by (eapply Permutation_in; [symmetry; exact P | left; reflexivity]).
      destruct Ix as [->|Ix]; [reflexivity|]. destruct Iy as [->|Iy]; [reflexivity|].
      apply F2 in Ix. apply F1 in Iy. lra. }
    subst y. f_equal. apply IH; try assumption. eapply Permutation_cons_inv; exact P.
Qed.
Lemma sort_ext (a b : list R) : Permutation a b -> sort_desc RA a = sort_desc RA b.
Proof. intro P. apply desc_unique; try apply sort_sorted. rewrite !sort_perm. exact P. Qed.

Lemma desc_count (l : list R) k v : desc l -> nth_error l k = Some v ->
  (length (filter (fun y => r_ltb v y) l) <= k)%nat /\ (k + 1 <= length (filter (fun y => r_leb v y) l))%nat.
Proof.
  revert k; induction l as [|x l IH]; intros k S N; [destruct k; discriminate|].
  inversion S as [|? ? S1 F]; subst. rewrite Forall_forall in F. destruct k as [|k]; cbn [nth_error] in N.
  - inversion N; subst x. cbn [filter]. replace (r_ltb v v) with false by (symmetry; apply r_ltb_false; lra).
    replace (r_leb v v) with true by (symmetry; apply r_leb_true; lra). cbn [length].
    assert (E : filter (fun y => r_ltb v y) l = []).
    { apply incl_l_nil. intros z I. apply filter_In in I as [I J]. apply F in I. apply r_ltb_true in J. lra. }
    rewrite E. cbn. lia.
  - destruct (IH k S1 N) as [A B]. assert (I : In v l) by (eapply nth_error_In; exact N). apply F in I.
    cbn [filter]. replace (r_leb v x) with true by (symmetry; apply r_leb_true; lra). cbn [length].
    destruct (r_ltb v x); cbn [length]; lia.
Qed.
Lemma filter_perm {T} (f : T -> bool) l l' : Permutation l l' -> length (filter f l) = length (filter f l').
Proof.
  induction 1; cbn [filter]; try congruence.
  - destruct (f x); cbn; congruence.
  - destruct (f x), (f y); reflexivity.
Qed.
(** Python index of a list *)
Lemma pyget_iff {T} (l : list T) i : (exists v, pyget l i = Ok v) <-> (- Z.of_nat (length l) <= i < Z.of_nat (length l))%Z.
Proof.
  unfold pyget. set (n := Z.of_nat (length l)). set (j := if (i <? 0)%Z then (i + n)%Z else i).
  assert (J : j = if (i <? 0)%Z then (i + n)%Z else i) by reflexivity. clearbody j.
  destruct ((j <? 0)%Z || (n <=? j)%Z) eqn:B.
  - split; [intros [v H]; discriminate|]. intro. destruct (i <? 0)%Z eqn:E; lia.
  - split.
    + intros _. destruct (i <? 0)%Z eqn:E; lia.
    + intros _. destruct (nth_error l (Z.to_nat j)) eqn:N; [cbn; eauto|]. apply nth_error_None in N. lia.
Qed.
Lemma pyget_inv {T} (l : list T) i v : pyget l i = Ok v ->
  exists k, nth_error l k = Some v /\ Z.of_nat k = (if (i <? 0)%Z then i + Z.of_nat (length l) else i)%Z.
Proof.
  unfold pyget. set (j := if (i <? 0)%Z then _ else i). destruct ((j <? 0)%Z || _) eqn:B; [discriminate|].
  intro H. apply opt_res_inv in H. exists (Z.to_nat j). split; [exact H | lia].
Qed.
Lemma pyget_in {T} (l : list T) i v : pyget l i = Ok v -> In v l.
Proof. intro H. apply pyget_inv in H as [k [N _]]. eapply nth_error_In; exact N. Qed.
Lemma pyget_err {T} (l : list T) i e : pyget l i = Err e -> e = IndexError.
Proof.
  unfold pyget. destruct (_ || _); [congruence|]. destruct (nth_error l _); cbn; congruence.
Qed.
Lemma desc_nth (l : list R) j k u v : desc l -> (j <= k)%nat -> nth_error l j = Some u -> nth_error l k = Some v -> v <= u.
Proof.
  intro S. revert j k; induction S as [|x l S IH F]; intros j k L U V; [destruct j; discriminate|].
  destruct k as [|k]; [assert (j = O) by lia; subst; cbn in *; inversion U; inversion V; lra|]. destruct j as [|j]; cbn in U, V.
  - inversion U; subst. rewrite Forall_forall in F. apply nth_error_In in V. apply F in V. lra.
  - apply (IH j k); [lia | assumption | assumption].
Qed.

Lemma qtile_defined (a : list R) ir : (exists v, qtile RA a ir = Ok v) <-> (- Z.of_nat (length a) <= ir < Z.of_nat (length a))%Z.
Proof. unfold qtile. rewrite pyget_iff, sort_length. reflexivity. Qed.
Lemma qtile_order (a : list R) ir (v : R) : qtile RA a ir = Ok v ->
  let k := (if (ir <? 0)%Z then ir + Z.of_nat (length a) else ir)%Z in
  In v a /\ (Z.of_nat (length (filter (fun y => r_ltb v y) a)) <= k)%Z /\ (k + 1 <= Z.of_nat (length (filter (fun y => r_leb v y) a)))%Z.
Proof.
  unfold qtile. intro H. set (k := (if (ir <? 0)%Z then ir + Z.of_nat (length a) else ir)%Z). cbv zeta. split.
  - apply pyget_in in H. eapply Permutation_in; [apply sort_perm | exact H].
  - apply pyget_inv in H as [n [N E]]. rewrite sort_length in E. fold k in E.
    destruct (desc_count _ _ _ (sort_sorted a) N) as [A B]. rewrite (filter_perm _ _ _ (sort_perm a)) in A. rewrite (filter_perm _ _ _ (sort_perm a)) in B.
    rewrite <- E. split; [apply inj_le; exact A|]. apply inj_le in B. rewrite Nat2Z.inj_add in B. exact B.
Qed.
Lemma qtile_perm (a b : list R) ir : Permutation a b -> qtile RA a ir = qtile RA b ir.
Proof. intro P. unfold qtile. rewrite (sort_ext a b P). reflexivity. Qed.
Lemma qtile_mono (a : list R) i j (u v : R) : (0 <= i)%Z -> (i <= j)%Z -> qtile RA a i = Ok u -> qtile RA a j = Ok v -> v <= u.
Proof.
  intros I J U V. unfold qtile in *. apply pyget_inv in U as [m [U EU]]. apply pyget_inv in V as [n [V EV]].
  replace (i <? 0)%Z with false in EU by lia. replace (j <? 0)%Z with false in EV by lia.
  eapply desc_nth; [apply sort_sorted | | exact U | exact V]. lia.
Qed.
Lemma qtile_fails (a : list R) ir e : qtile RA a ir = Err e -> e = IndexError.
Proof. apply pyget_err. Qed.
Lemma qtile_extremes (a : list R) : a <> [] -> exists u v : R,
  qtile RA a 0 = Ok u /\ qtile RA a (-1) = Ok v /\ (forall x, In x a -> v <= x <= u).
Proof.
  intro N. assert (L : (0 < length a)%nat) by (destruct a; [congruence | cbn; lia]).
  destruct (proj2 (qtile_defined a 0)) as [u U]; [lia|]. destruct (proj2 (qtile_defined a (-1))) as [v V]; [lia|].
  exists u, v. split; [exact U|]. split; [exact V|]. intros x I.
  unfold qtile in U, V. apply pyget_inv in U as [m [U EU]]. apply pyget_inv in V as [n [V EV]].
  apply (Permutation_in x (Permutation_sym (sort_perm a))) in I. apply In_nth_error in I as [j J].
  assert (Hj : (j < length (sort_desc RA a))%nat) by (eapply (proj1 (nth_error_Some _ j)); intro K; pose proof (eq_trans (eq_sym J) K) as K'; discriminate K').
  cbn [Z.ltb Z.compare] in EU, EV. rewrite sort_length in EV, Hj. split; [apply (desc_nth _ _ _ _ _ (sort_sorted a)) with (2 := J) (3 := V) | apply (desc_nth _ _ _ _ _ (sort_sorted a)) with (2 := U) (3 := J)]; lia.
Qed.
