(** Lemmas and tactics about the monad, the dictionary and the real instance. *)
From Verif Require Export Dict RInst.

(** * Monad *)
Lemma bind_inv {A B} (m : res A) (k : A -> res B) r :
  bind m k = Ok r -> exists a, m = Ok a /\ k a = Ok r.
Proof. destruct m; cbn; intro H; [eauto | discriminate]. Qed.
Lemma opt_res_inv {A} e (o : option A) a : opt_res e o = Ok a -> o = Some a.
Proof. destruct o; cbn; congruence. Qed.

(** * Dictionary *)
Lemma nkey_eqb_eq a b : nkey_eqb a b = true <-> a = b.
Proof.
  unfold nkey_eqb. rewrite Pos.eqb_eq. split; [|congruence].
  destruct a; destruct b; cbn; intro H; try reflexivity; discriminate H.
Qed.
Lemma zkey_eqb_eq a b : zkey_eqb a b = true <-> a = b.
Proof.
  unfold zkey_eqb. rewrite Pos.eqb_eq. split; [|congruence].
  destruct a; destruct b; cbn; intro H; try reflexivity; discriminate H.
Qed.
Lemma bkey_eqb_eq a b : bkey_eqb a b = true <-> a = b.
Proof.
  unfold bkey_eqb. rewrite Pos.eqb_eq. split; [|congruence].
  destruct a; destruct b; cbn; intro H; try reflexivity; discriminate H.
Qed.
Lemma nkey_eqb_refl a : nkey_eqb a a = true. Proof. apply nkey_eqb_eq; reflexivity. Qed.
Lemma zkey_eqb_refl a : zkey_eqb a a = true. Proof. apply zkey_eqb_eq; reflexivity. Qed.
Lemma bkey_eqb_refl a : bkey_eqb a a = true. Proof. apply bkey_eqb_eq; reflexivity. Qed.

Section DictLemmas.
Context {A : arith}.
Implicit Types p : prop A.
Lemma getn_setn p k k' v : getn (setn p k v) k' = if nkey_eqb k k' then Ok v else getn p k'.
Proof. unfold getn, setn; cbn. destruct (nkey_eqb k k'); reflexivity. Qed.
Lemma getn_setz p k k' v : getn (setz p k v) k' = getn p k'. Proof. reflexivity. Qed.
Lemma getn_setb p k k' v : getn (setb p k v) k' = getn p k'. Proof. reflexivity. Qed.
Lemma getn_setpfl p k' v : getn (setpfl p v) k' = getn p k'. Proof. reflexivity. Qed.
Lemma getz_setz p k k' v : getz (setz p k v) k' = if zkey_eqb k k' then Ok v else getz p k'.
Proof. unfold getz, setz; cbn. destruct (zkey_eqb k k'); reflexivity. Qed.
Lemma getz_setn p k k' v : getz (setn p k v) k' = getz p k'. Proof. reflexivity. Qed.
Lemma getz_setb p k k' v : getz (setb p k v) k' = getz p k'. Proof. reflexivity. Qed.
Lemma getz_setpfl p k' v : getz (setpfl p v) k' = getz p k'. Proof. reflexivity. Qed.
Lemma getb_setb p k k' v : getb (setb p k v) k' = if bkey_eqb k k' then Ok v else getb p k'.
Proof. unfold getb, setb; cbn. destruct (bkey_eqb k k'); reflexivity. Qed.
Lemma getb_setn p k k' v : getb (setn p k v) k' = getb p k'. Proof. reflexivity. Qed.
Lemma getb_setz p k k' v : getb (setz p k v) k' = getb p k'. Proof. reflexivity. Qed.
Lemma getb_setpfl p k' v : getb (setpfl p v) k' = getb p k'. Proof. reflexivity. Qed.
Lemma getpfl_setn p k v : getpfl (setn p k v) = getpfl p. Proof. reflexivity. Qed.
Lemma getpfl_setz p k v : getpfl (setz p k v) = getpfl p. Proof. reflexivity. Qed.
Lemma getpfl_setb p k v : getpfl (setb p k v) = getpfl p. Proof. reflexivity. Qed.
Lemma getpfl_setpfl p v : getpfl (setpfl p v) = Ok v. Proof. reflexivity. Qed.
End DictLemmas.
Global Hint Rewrite @getn_setn @getn_setz @getn_setb @getn_setpfl @getz_setz @getz_setn @getz_setb @getz_setpfl
  @getb_setb @getb_setn @getb_setz @getb_setpfl @getpfl_setn @getpfl_setz @getpfl_setb @getpfl_setpfl : dict.

Ltac keys := cbn [nkey_eqb zkey_eqb bkey_eqb nkey_id zkey_id bkey_id Pos.eqb].
Ltac keys_in H := cbn [nkey_eqb zkey_eqb bkey_eqb nkey_id zkey_id bkey_id Pos.eqb] in H.
(** Simplify dictionary reads in a hypothesis / in the goal. *)
Ltac dsimp_in H := autorewrite with dict in H; keys_in H; cbn [bind] in H.
Ltac dsimp := autorewrite with dict; keys; cbn [bind].

(** * Inversion of monadic runs.  [inv_bind H] takes one step of [H : bind m k = Ok r]. *)
Ltac bind1 H :=
  match type of H with
  | bind (Ok ?a) ?k = _ => cbn [bind] in H
  | bind (Err _) _ = _ => discriminate H
  | bind ?m ?k = Ok ?r =>
      let x := fresh "x" in let E := fresh "E" in
      destruct m as [x|] eqn:E; cbn [bind] in H; [|discriminate H]
  | Err _ = Ok _ => discriminate H
  end.

(** * The real instance *)
Lemma r_ltb_true x y : r_ltb x y = true <-> x < y.
Proof. unfold r_ltb; destruct (Rlt_dec x y); split; intros; try easy; lra. Qed.
Lemma r_ltb_false x y : r_ltb x y = false <-> y <= x.
Proof. unfold r_ltb; destruct (Rlt_dec x y); split; intros; try easy; lra. Qed.
Lemma r_leb_true x y : r_leb x y = true <-> x <= y.
Proof. unfold r_leb; destruct (Rle_dec x y); split; intros; try easy; lra. Qed.
Lemma r_leb_false x y : r_leb x y = false <-> y < x.
Proof. unfold r_leb; destruct (Rle_dec x y); split; intros; try easy; lra. Qed.
Lemma r_eqb_true x y : r_eqb x y = true <-> x = y.
Proof. unfold r_eqb; destruct (Req_EM_T x y); split; intros; easy. Qed.
Lemma r_eqb_false x y : r_eqb x y = false <-> x <> y.
Proof. unfold r_eqb; destruct (Req_EM_T x y); split; intros; easy. Qed.

Lemma r_div_ok x y : y <> 0 -> r_div x y = Ok (x / y).
Proof. unfold r_div; destruct (Req_EM_T y 0); intros; easy. Qed.
Lemma r_div_inv x y v : r_div x y = Ok v -> y <> 0 /\ v = x / y.
Proof. unfold r_div; destruct (Req_EM_T y 0); intro H; [easy | inversion H; auto]. Qed.
Lemma r_sqrt_ok e x : 0 <= x -> r_sqrt e x = Ok (sqrt x).
Proof. unfold r_sqrt; destruct (Rlt_dec x 0); intros; [lra | easy]. Qed.
Lemma r_sqrt_inv e x v : r_sqrt e x = Ok v -> 0 <= x /\ v = sqrt x.
Proof. unfold r_sqrt; destruct (Rlt_dec x 0); intro H; [easy | inversion H; split; [lra|auto]]. Qed.
Lemma r_log_ok x : 0 < x -> r_log x = Ok (ln x).
Proof. unfold r_log; destruct (Rle_dec x 0); intros; [lra | easy]. Qed.
Lemma r_log_inv x v : r_log x = Ok v -> 0 < x /\ v = ln x.
Proof. unfold r_log; destruct (Rle_dec x 0); intro H; [easy | inversion H; split; [lra|auto]]. Qed.
Lemma r_pow_ok x y : 0 < x -> r_pow x y = Ok (Rpower x y).
Proof. unfold r_pow; destruct (Rlt_dec 0 x); intros; [easy | lra]. Qed.
Lemma r_powZ_pos x k : r_powZ x (Zpos k) = Ok (x ^ Pos.to_nat k).
Proof. reflexivity. Qed.
Lemma r_pow_inv x y v : r_pow x y = Ok v ->
  (0 < x /\ v = Rpower x y) \/ (x = 0 /\ 0 < y /\ v = 0) \/ (x = 0 /\ y = 0 /\ v = 1).
Proof.
  unfold r_pow; destruct (Rlt_dec 0 x); [intro H; inversion H; auto|].
  destruct (Req_EM_T x 0); [|easy].
  destruct (Rlt_dec y 0); [easy|]. destruct (Req_EM_T y 0); intro H; inversion H; subst.
  - right; right; auto.
  - right; left; repeat split; auto; lra.
Qed.

(** Unfold the pure operations of the real instance. *)
Ltac runfold :=
  unfold pymax, pymin, c_add, c_sub, c_mul, c_real, c_abs in *;
  cbn [RA num n_Z n_lit n_add n_sub n_mul n_opp n_abs n_div n_ltb n_leb n_eqb n_trunc n_floor m_sqrt m_exp
       m_sin m_cos np_log np_sqrt n_powZ n_pow n_hypot n_csqrt n_round n_rint fst snd] in *;
  change (Arith.num RA) with R in *.

(** Turn boolean tests into propositions. *)
Ltac rbool :=
  repeat match goal with
  | H : r_ltb _ _ = true |- _ => apply r_ltb_true in H
  | H : r_ltb _ _ = false |- _ => apply r_ltb_false in H
  | H : r_leb _ _ = true |- _ => apply r_leb_true in H
  | H : r_leb _ _ = false |- _ => apply r_leb_false in H
  | H : r_eqb _ _ = true |- _ => apply r_eqb_true in H
  | H : r_eqb _ _ = false |- _ => apply r_eqb_false in H
  | H : (_ || _)%bool = true |- _ => apply orb_true_iff in H; destruct H
  | H : (_ || _)%bool = false |- _ => apply orb_false_iff in H; destruct H
  | H : (_ && _)%bool = true |- _ => apply andb_true_iff in H; destruct H
  | H : (_ && _)%bool = false |- _ => apply andb_false_iff in H; destruct H
  | H : negb _ = true |- _ => apply negb_true_iff in H
  | H : negb _ = false |- _ => apply negb_false_iff in H
  end.

(** One inversion step on [H], a run in the real instance. *)
Ltac rinv1 H :=
  cbn [bind opt_res fst snd] in H;
  match type of H with
  | Ok _ = Ok _ => injection H; clear H; intros
  | Err _ = Ok _ => discriminate H
  | Ok _ = Err _ => discriminate H
  | r_div ?x ?y = Ok ?v => apply r_div_inv in H; destruct H as [? ?]
  | r_sqrt ?e ?x = Ok ?v => apply r_sqrt_inv in H; destruct H as [? ?]
  | r_log ?x = Ok ?v => apply r_log_inv in H; destruct H as [? ?]
  | r_powZ ?x (Zpos ?k) = Ok ?v => rewrite r_powZ_pos in H
  | bind (Ok ?a) ?k = _ => cbn [bind] in H
  | bind (Err _) _ = _ => discriminate H
  | bind (if ?b then _ else _) _ = Ok _ => let E := fresh "B" in destruct b eqn:E
  | (if ?b then _ else _) = Ok _ => let E := fresh "B" in destruct b eqn:E
  | bind ?m ?k = Ok ?r =>
      let x := fresh "x" in let E := fresh "E" in
      destruct m as [x|] eqn:E; cbn [bind] in H; [rinv1 E | discriminate H]
  | _ => idtac
  end.

Lemma ln_le_mono x y : 0 < x -> x <= y -> ln x <= ln y.
Proof. intros H [K|K]; [left; apply ln_increasing; assumption | subst; lra]. Qed.
Lemma r_powZ_2 x : r_powZ x 2 = Ok (x ^ 2).
Proof. reflexivity. Qed.
Lemma r_powZ_3 x : r_powZ x 3 = Ok (x ^ 3).
Proof. reflexivity. Qed.
Lemma r_powZ_4 x : r_powZ x 4 = Ok (x ^ 4).
Proof. reflexivity. Qed.
Lemma r_powZ_6 x : r_powZ x 6 = Ok (x ^ 6).
Proof. reflexivity. Qed.
