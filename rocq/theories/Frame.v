(** Proof tools: weakest preconditions over the error monad, frames, and relational reasoning. *)
From Verif Require Export SpecDict RTac.

Definition wp {T} (m : res T) (Q : T -> Prop) : Prop := forall x, m = Ok x -> Q x.
Lemma wp_bind {S T} (m : res S) (k : S -> res T) Q : wp m (fun x => wp (k x) Q) -> wp (bind m k) Q.
Proof. intros H x Hx. destruct m as [a|]; cbn in Hx; [|discriminate]. exact (H a eq_refl x Hx). Qed.
Lemma wp_ok {T} (x : T) (Q : T -> Prop) : Q x -> wp (Ok x) Q.
Proof. intros H y E. inversion E; subst; assumption. Qed.
Lemma wp_err {T} e (Q : T -> Prop) : wp (Err e) Q.
Proof. intros x E. discriminate. Qed.
Lemma wp_conseq {T} (m : res T) (P Q : T -> Prop) : wp m P -> (forall x, P x -> Q x) -> wp m Q.
Proof. intros H K x E. apply K, H, E. Qed.
Lemma wp_any {T} (m : res T) (Q : T -> Prop) : (forall x, Q x) -> wp m Q.
Proof. intros H x _. apply H. Qed.
Lemma wp_eq {T} (m : res T) (Q : T -> Prop) : (forall x, m = Ok x -> Q x) -> wp m Q.
Proof. intros H. exact H. Qed.

(** * Frames *)
Definition memn (k : nkey) (l : list nkey) : bool := existsb (nkey_eqb k) l.
Definition memz (k : zkey) (l : list zkey) : bool := existsb (zkey_eqb k) l.
Definition memb (k : bkey) (l : list bkey) : bool := existsb (bkey_eqb k) l.
Lemma memn_In k l : memn k l = true <-> In k l.
Proof.
  unfold memn. rewrite existsb_exists. split.
  - intros [x [H E]]. apply nkey_eqb_eq in E. subst. assumption.
  - intro H. exists k. split; [assumption | apply nkey_eqb_refl].
Qed.
Lemma memz_In k l : memz k l = true <-> In k l.
Proof.
  unfold memz. rewrite existsb_exists. split.
  - intros [x [H E]]. apply zkey_eqb_eq in E. subst. assumption.
  - intro H. exists k. split; [assumption | apply zkey_eqb_refl].
Qed.
Lemma memb_In k l : memb k l = true <-> In k l.
Proof.
  unfold memb. rewrite existsb_exists. split.
  - intros [x [H E]]. apply bkey_eqb_eq in E. subst. assumption.
  - intro H. exists k. split; [assumption | apply bkey_eqb_refl].
Qed.
Lemma memn_nIn k l : memn k l = false <-> ~ In k l.
Proof. rewrite <- memn_In. destruct (memn k l); intuition congruence. Qed.
Lemma memz_nIn k l : memz k l = false <-> ~ In k l.
Proof. rewrite <- memz_In. destruct (memz k l); intuition congruence. Qed.
Lemma memb_nIn k l : memb k l = false <-> ~ In k l.
Proof. rewrite <- memb_In. destruct (memb k l); intuition congruence. Qed.

Section FrameLemmas.
Context {A : arith}.
Implicit Types p q r : prop A.
Context (nk : list nkey) (zk : list zkey) (bk : list bkey).
Lemma fr_refl p : same_except nk zk bk p p.
Proof. repeat split. Qed.
Lemma fr_setn p q k v : memn k nk = true -> same_except nk zk bk p q -> same_except nk zk bk p (setn q k v).
Proof.
  intros M [H1 [H2 [H3 H4]]]. repeat split; cbn; auto.
  intros k' N. destruct (nkey_eqb k k') eqn:E; [|auto].
  apply nkey_eqb_eq in E. subst. apply memn_In in M. contradiction.
Qed.
Lemma fr_setz p q k v : memz k zk = true -> same_except nk zk bk p q -> same_except nk zk bk p (setz q k v).
Proof.
  intros M [H1 [H2 [H3 H4]]]. repeat split; cbn; auto.
  intros k' N. destruct (zkey_eqb k k') eqn:E; [|auto].
  apply zkey_eqb_eq in E. subst. apply memz_In in M. contradiction.
Qed.
Lemma fr_setb p q k v : memb k bk = true -> same_except nk zk bk p q -> same_except nk zk bk p (setb q k v).
Proof.
  intros M [H1 [H2 [H3 H4]]]. repeat split; cbn; auto.
  intros k' N. destruct (bkey_eqb k k') eqn:E; [|auto].
  apply bkey_eqb_eq in E. subst. apply memb_In in M. contradiction.
Qed.
Lemma fr_trans p q r : same_except nk zk bk p q -> same_except nk zk bk q r -> same_except nk zk bk p r.
Proof.
  intros [H1 [H2 [H3 H4]]] [K1 [K2 [K3 K4]]]. repeat split; intros.
  - rewrite K1, H1; auto.
  - rewrite K2, H2; auto.
  - rewrite K3, H3; auto.
  - congruence.
Qed.
Lemma fr_sym p q : same_except nk zk bk p q -> same_except nk zk bk q p.
Proof. intros [H1 [H2 [H3 H4]]]. repeat split; intros; symmetry; auto. Qed.
Lemma fr_getn p q k : same_except nk zk bk p q -> memn k nk = false -> getn q k = getn p k.
Proof. intros [H _] M. unfold getn. rewrite H; [reflexivity | apply memn_nIn; assumption]. Qed.
Lemma fr_getz p q k : same_except nk zk bk p q -> memz k zk = false -> getz q k = getz p k.
Proof. intros [_ [H _]] M. unfold getz. rewrite H; [reflexivity | apply memz_nIn; assumption]. Qed.
Lemma fr_getb p q k : same_except nk zk bk p q -> memb k bk = false -> getb q k = getb p k.
Proof. intros [_ [_ [H _]]] M. unfold getb. rewrite H; [reflexivity | apply memb_nIn; assumption]. Qed.
Lemma fr_getpfl p q : same_except nk zk bk p q -> getpfl q = getpfl p.
Proof. intros [_ [_ [_ H]]]. unfold getpfl. congruence. Qed.
End FrameLemmas.

Definition subn (l l' : list nkey) : bool := forallb (fun k => memn k l') l.
Definition subz (l l' : list zkey) : bool := forallb (fun k => memz k l') l.
Definition subb (l l' : list bkey) : bool := forallb (fun k => memb k l') l.
Lemma subn_In l l' k : subn l l' = true -> In k l -> In k l'.
Proof. unfold subn. rewrite forallb_forall. intros H K. apply memn_In. auto. Qed.
Lemma subz_In l l' k : subz l l' = true -> In k l -> In k l'.
Proof. unfold subz. rewrite forallb_forall. intros H K. apply memz_In. auto. Qed.
Lemma subb_In l l' k : subb l l' = true -> In k l -> In k l'.
Proof. unfold subb. rewrite forallb_forall. intros H K. apply memb_In. auto. Qed.
Lemma fr_weaken {A : arith} nk zk bk nk' zk' bk' (p q : prop A) :
  subn nk nk' && subz zk zk' && subb bk bk' = true -> same_except nk zk bk p q -> same_except nk' zk' bk' p q.
Proof.
  intros S [H1 [H2 [H3 H4]]]. apply andb_true_iff in S as [S S3]. apply andb_true_iff in S as [S1 S2].
  repeat split; auto; intros k N.
  - apply H1. intro I. apply N. eapply subn_In; eauto.
  - apply H2. intro I. apply N. eapply subz_In; eauto.
  - apply H3. intro I. apply N. eapply subb_In; eauto.
Qed.

(** Chain of updates on top of known frames. *)
Ltac frames :=
  repeat first
    [ assumption
    | apply fr_refl
    | apply fr_setn; [reflexivity |]
    | apply fr_setz; [reflexivity |]
    | apply fr_setb; [reflexivity |]
    | match goal with
      | H : same_except _ _ _ ?p ?q |- same_except _ _ _ ?p ?q =>
          (eapply fr_weaken; [|exact H]; reflexivity)
      | H : same_except _ _ _ ?p' ?q |- same_except _ _ _ ?p ?q =>
          eapply fr_trans; [| eapply fr_weaken; [|exact H]; reflexivity]
      end ].

(** Step through a run for a frame statement: look inside computations returning a dictionary, skip the
    others. *)
Ltac wstep lem :=
  match goal with
  | |- wp (bind ?m ?k) _ => apply wp_bind
  | |- wp (Ok _) _ => apply wp_ok
  | |- wp (Err _) _ => apply wp_err
  | |- wp (if ?b then _ else _) _ => destruct b eqn:?
  | |- wp (match ?o with Some _ => _ | None => _ end) _ => destruct o eqn:?
  | |- wp (let (_, _) := ?o in _) _ => destruct o eqn:?
  | |- wp (getn _ _) _ => apply wp_eq; intros ? ?
  | |- wp (getz _ _) _ => apply wp_eq; intros ? ?
  | |- wp (getb _ _) _ => apply wp_eq; intros ? ?
  | |- wp (getpfl _) _ => apply wp_eq; intros ? ?
  | |- wp ?m _ => lem
  | |- wp ?m _ =>
      match type of m with
      | res (num _) => apply wp_any; intros ?
      | res (_ * _) => apply wp_any; intros [? ?]
      | res _ => apply wp_any; intros ?
      end
  end; cbn beta; cbn [fst snd].

(** * Relational reasoning *)
Section Rel.
Context {A : arith}.
Lemma so_bind {S S' T T'} (P : S -> S' -> Prop) (R : T -> T' -> Prop) m m' k k' :
  same_outcome P m m' -> (forall a b, P a b -> same_outcome R (k a) (k' b)) ->
  same_outcome R (bind m k) (bind m' k').
Proof. destruct m, m'; cbn; try contradiction; auto. Qed.
Lemma so_bind_same {S T T'} (R : T -> T' -> Prop) (m : res S) k k' :
  (forall a, same_outcome R (k a) (k' a)) -> same_outcome R (bind m k) (bind m k').
Proof. destruct m; cbn; auto. Qed.
Lemma so_refl {T} (R : T -> T -> Prop) m : (forall x, R x x) -> same_outcome R m m.
Proof. destruct m; cbn; auto. Qed.
Lemma so_eq {T} (m m' : res T) : same_outcome eq m m' -> m = m'.
Proof. destruct m, m'; cbn; try contradiction; congruence. Qed.
Lemma eq_so {T} (m m' : res T) : m = m' -> same_outcome eq m m'.
Proof. intros ->. destruct m'; reflexivity. Qed.
Lemma so_ok {S T} (R : S -> T -> Prop) m n a : same_outcome R m n -> m = Ok a -> exists b, n = Ok b /\ R a b.
Proof. intros H ->. destruct n; cbn in H; [eauto | contradiction]. Qed.
Lemma so_conseq {S T} (P R : S -> T -> Prop) m n : same_outcome P m n -> (forall a b, P a b -> R a b) ->
  same_outcome R m n.
Proof. destruct m, n; cbn; auto. Qed.

Implicit Types p q : prop A.
Lemma ag_getn nk zk bk p q k : agree_on nk zk bk p q -> memn k nk = true -> getn p k = getn q k.
Proof. intros [H _] M. unfold getn. rewrite H; [reflexivity | apply memn_In; assumption]. Qed.
Lemma ag_getz nk zk bk p q k : agree_on nk zk bk p q -> memz k zk = true -> getz p k = getz q k.
Proof. intros [_ [H _]] M. unfold getz. rewrite H; [reflexivity | apply memz_In; assumption]. Qed.
Lemma ag_getb nk zk bk p q k : agree_on nk zk bk p q -> memb k bk = true -> getb p k = getb q k.
Proof. intros [_ [_ H]] M. unfold getb. rewrite H; [reflexivity | apply memb_In; assumption]. Qed.
Lemma ag_refl nk zk bk p : agree_on nk zk bk p p.
Proof. repeat split. Qed.
Lemma ag_setn nk zk bk p q k v : agree_on (filter (fun x => negb (nkey_eqb k x)) nk) zk bk p q ->
  agree_on nk zk bk (setn p k v) (setn q k v).
Proof.
  intros [H1 [H2 H3]]. repeat split; auto. intros k' I. cbn.
  destruct (nkey_eqb k k') eqn:E; [reflexivity|]. apply H1. apply filter_In. split; [assumption|].
  rewrite E. reflexivity.
Qed.
Lemma ag_setz nk zk bk p q k v : agree_on nk (filter (fun x => negb (zkey_eqb k x)) zk) bk p q ->
  agree_on nk zk bk (setz p k v) (setz q k v).
Proof.
  intros [H1 [H2 H3]]. repeat split; auto. intros k' I. cbn.
  destruct (zkey_eqb k k') eqn:E; [reflexivity|]. apply H2. apply filter_In. split; [assumption|].
  rewrite E. reflexivity.
Qed.
Lemma ag_setb nk zk bk p q k v : agree_on nk zk (filter (fun x => negb (bkey_eqb k x)) bk) p q ->
  agree_on nk zk bk (setb p k v) (setb q k v).
Proof.
  intros [H1 [H2 H3]]. repeat split; auto. intros k' I. cbn.
  destruct (bkey_eqb k k') eqn:E; [reflexivity|]. apply H3. apply filter_In. split; [assumption|].
  rewrite E. reflexivity.
Qed.
Lemma ag_weaken nk zk bk nk' zk' bk' p q :
  subn nk nk' && subz zk zk' && subb bk bk' = true -> agree_on nk' zk' bk' p q -> agree_on nk zk bk p q.
Proof.
  intros S [H1 [H2 H3]]. apply andb_true_iff in S as [S S3]. apply andb_true_iff in S as [S1 S2].
  repeat split; intros k I.
  - apply H1. eapply subn_In; eauto.
  - apply H2. eapply subz_In; eauto.
  - apply H3. eapply subb_In; eauto.
Qed.
End Rel.

Ltac agrees :=
  repeat first
    [ assumption
    | apply ag_refl
    | match goal with H : agree_on _ _ _ ?p ?q |- agree_on _ _ _ ?p ?q =>
        (eapply ag_weaken; [|exact H]; reflexivity) end
    | apply ag_setn | apply ag_setz | apply ag_setb ].

(** One relational step; [lem] handles calls of other dictionary functions. *)
Ltac rewr_reads :=
  repeat match goal with
  | H : agree_on _ _ _ ?p ?q |- context [getn ?p ?k] => rewrite (ag_getn _ _ _ p q k H eq_refl)
  | H : agree_on _ _ _ ?p ?q |- context [getz ?p ?k] => rewrite (ag_getz _ _ _ p q k H eq_refl)
  | H : agree_on _ _ _ ?p ?q |- context [getb ?p ?k] => rewrite (ag_getb _ _ _ p q k H eq_refl)
  end.
Ltac sostep lem :=
  match goal with
  | |- same_outcome _ (bind ?m ?k) (bind ?m ?k') => apply so_bind_same; intros ?
  | |- same_outcome _ (bind (getn _ _) _) _ => progress (dsimp; rewr_reads)
  | |- same_outcome _ (bind (getz _ _) _) _ => progress (dsimp; rewr_reads)
  | |- same_outcome _ (bind (getb _ _) _) _ => progress (dsimp; rewr_reads)
  | |- same_outcome _ (getn _ _) _ => progress (dsimp; rewr_reads)
  | |- same_outcome _ (if ?b then _ else _) (if ?b then _ else _) => destruct b
  | |- same_outcome _ (bind (if ?b then _ else _) _) (bind (if ?b then _ else _) _) => destruct b
  | |- same_outcome _ (bind (bind _ _) _) _ => eapply so_bind
  | |- same_outcome _ (let (_, _) := ?o in _) (let (_, _) := ?o in _) => destruct o
  | |- same_outcome _ (Ok _) (Ok _) => cbn [same_outcome]
  | |- same_outcome _ (Err _) (Err _) => reflexivity
  | |- same_outcome _ ?m ?m => first [apply so_refl; intros; reflexivity | lem]
  | |- _ => lem
  end; cbn beta.
