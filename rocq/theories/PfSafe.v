(** Definition before use: which exceptions the model can raise. *)
From Verif Require Export SpecSafe Frame.
Close Scope R_scope.
Open Scope Z_scope.

Section Safe.
Context (A : arith) (N : numeric A).
Notation num := (num A).
Notation prop := (prop A).

(** [E]: the exceptions allowed. *)
Definition safe (E : exn -> bool) {T} (m : res T) (Q : T -> Prop) : Prop :=
  match m with Ok x => Q x | Err e => E e = true end.
Definition D (ns : list nkey) (zs : list zkey) (bs : list bkey) (p : prop) : Prop :=
  (forall k, memn k ns = true -> pn p k <> None) /\ (forall k, memz k zs = true -> pz p k <> None) /\
  (forall k, memb k bs = true -> pb p k <> None).

Context (E : exn -> bool).

Lemma safe_bind {S T} (m : res S) (k : S -> res T) P Q :
  safe E m P -> (forall x, P x -> safe E (k x) Q) -> safe E (bind m k) Q.
Proof. destruct m; cbn; auto. Qed.
Lemma safe_conseq {T} (m : res T) (P Q : T -> Prop) : safe E m P -> (forall x, P x -> Q x) -> safe E m Q.
Proof. destruct m; cbn; auto. Qed.
Lemma safe_getn {T} (p : prop) k (f : num -> res T) Q :
  pn p k <> None -> (forall v, safe E (f v) Q) -> safe E (bind (getn p k) f) Q.
Proof. unfold getn. destruct (pn p k); cbn; auto; congruence. Qed.
Lemma safe_getz {T} (p : prop) k (f : Z -> res T) Q :
  pz p k <> None -> (forall v, pz p k = Some v -> safe E (f v) Q) -> safe E (bind (getz p k) f) Q.
Proof. unfold getz. destruct (pz p k); cbn; auto; congruence. Qed.
Lemma safe_getb {T} (p : prop) k (f : bool -> res T) Q :
  pb p k <> None -> (forall v, pb p k = Some v -> safe E (f v) Q) -> safe E (bind (getb p k) f) Q.
Proof. unfold getb. destruct (pb p k); cbn; auto; congruence. Qed.

Lemma safe_num {S T} (m : res S) (k : S -> res T) Q :
  (forall e, numeric_error e = true -> E e = true) -> only_numeric m -> (forall x, safe E (k x) Q) -> safe E (bind m k) Q.
Proof. intros EN H K. destruct m; cbn; auto. Qed.
Lemma safe_num0 {S} (m : res S) : (forall e, numeric_error e = true -> E e = true) -> only_numeric m -> safe E m (fun _ => True).
Proof. intros EN H. destruct m; cbn; auto. Qed.

Lemma D_sub ns zs bs ns' zs' bs' p : D ns zs bs p ->
  forallb (fun k => memn k ns) ns' && forallb (fun k => memz k zs) zs' && forallb (fun k => memb k bs) bs' = true ->
  D ns' zs' bs' p.
Proof.
  intros [H1 [H2 H3]] H. apply andb_prop in H. destruct H as [H K3]. apply andb_prop in H. destruct H as [K1 K2].
  rewrite forallb_forall in K1, K2, K3.
  split; [|split]; intros k Hk; [apply H1, K1, memn_In, Hk | apply H2, K2, memz_In, Hk | apply H3, K3, memb_In, Hk].
Qed.
Lemma D_setn k v ns zs bs p : D (filter (fun x => negb (nkey_eqb k x)) ns) zs bs p -> D ns zs bs (setn p k v).
Proof.
  intros [H1 [H2 H3]]. split; [|split; assumption].
  intros k' Hk. cbn. destruct (nkey_eqb k k') eqn:Ek; [discriminate|].
  apply H1. apply memn_In, filter_In. split; [apply memn_In, Hk | rewrite Ek; reflexivity].
Qed.
Lemma D_setz k v ns zs bs p : D ns (filter (fun x => negb (zkey_eqb k x)) zs) bs p -> D ns zs bs (setz p k v).
Proof.
  intros [H1 [H2 H3]]. split; [assumption|split; [|assumption]].
  intros k' Hk. cbn. destruct (zkey_eqb k k') eqn:Ek; [discriminate|].
  apply H2. apply memz_In, filter_In. split; [apply memz_In, Hk | rewrite Ek; reflexivity].
Qed.
Lemma D_setb k v ns zs bs p : D ns zs (filter (fun x => negb (bkey_eqb k x)) bs) p -> D ns zs bs (setb p k v).
Proof.
  intros [H1 [H2 H3]]. split; [assumption|split; [assumption|]].
  intros k' Hk. cbn. destruct (bkey_eqb k k') eqn:Ek; [discriminate|].
  apply H3. apply memb_In, filter_In. split; [apply memb_In, Hk | rewrite Ek; reflexivity].
Qed.
Lemma D_n ns zs bs p k : D ns zs bs p -> memn k ns = true -> pn p k <> None. Proof. intros [H _]. apply H. Qed.
Lemma D_z ns zs bs p k : D ns zs bs p -> memz k zs = true -> pz p k <> None. Proof. intros [_ [H _]]. apply H. Qed.
Lemma D_b ns zs bs p k : D ns zs bs p -> memb k bs = true -> pb p k <> None. Proof. intros [_ [_ H]]. apply H. Qed.

Lemma on_bind {S T} (m : res S) (k : S -> res T) : only_numeric m -> (forall x, only_numeric (k x)) -> only_numeric (bind m k).
Proof. intros H K e. destruct m; cbn; [apply K | intro X; inversion X; subst; apply H; reflexivity]. Qed.
Lemma on_ok {T} (x : T) : only_numeric (Ok x). Proof. intros e X. discriminate. Qed.
Lemma on_zd {T} : only_numeric (Err ZeroDivisionError : res T). Proof. intros e X. inversion X; reflexivity. Qed.
End Safe.

(** Pure helpers. *)
Ltac onum N :=
  repeat lazymatch goal with
  | |- only_numeric (Ok _) => apply on_ok
  | |- only_numeric (Err ZeroDivisionError) => apply on_zd
  | |- only_numeric (bind _ _) => apply on_bind; [|intros ?]
  | |- only_numeric (n_div _ _) => apply (nm_div _ N)
  | |- only_numeric (n_trunc _) => apply (nm_trunc _ N)
  | |- only_numeric (n_floor _) => apply (nm_floor _ N)
  | |- only_numeric (m_sqrt _) => apply (nm_sqrt _ N)
  | |- only_numeric (m_exp _) => apply (nm_exp _ N)
  | |- only_numeric (m_sin _) => apply (nm_sin _ N)
  | |- only_numeric (m_cos _) => apply (nm_cos _ N)
  | |- only_numeric (np_log _) => apply (nm_log _ N)
  | |- only_numeric (np_sqrt _) => apply (nm_npsqrt _ N)
  | |- only_numeric (n_powZ _ _) => apply (nm_powZ _ N)
  | |- only_numeric (n_pow _ _) => apply (nm_pow _ N)
  | |- only_numeric (n_hypot _ _) => apply (nm_hypot _ N)
  | |- only_numeric (n_csqrt _ _) => apply (nm_csqrt _ N)
  | |- only_numeric (n_round _ _) => apply (nm_round _ N)
  | |- only_numeric (n_rint _) => apply (nm_rint _ N)
  | |- only_numeric (if ?b then _ else _) => destruct b
  | |- only_numeric (let (_, _) := ?x in _) => destruct x
  | |- only_numeric (match ?x with Some _ => _ | None => _ end) => destruct x
  | |- only_numeric _ => eauto with onum
  end.
Create HintDb onum.

Section Pure.
Context (A : arith) (N : numeric A).
Lemma on_aknfe v : only_numeric (aknfe A v). Proof. unfold aknfe. onum N. Qed.
Lemma on_fht x k : only_numeric (fht A x k). Proof. unfold fht. onum N. Qed.
Lemma on_dh_at x k : only_numeric (dh_at A x k). Proof. unfold dh_at. onum N. Qed.
Lemma on_rough x : only_numeric (rough A x). Proof. unfold rough. onum N. Qed.
Hint Resolve on_fht : onum.
Lemma on_adiff_term a b c d e : only_numeric (adiff_term A a b c d e). Proof. unfold adiff_term. onum N. Qed.
Lemma on_c_div (x y : cplx A) : only_numeric (c_div x y). Proof. unfold c_div. onum N. Qed.
Lemma on_c_abs (x : cplx A) : only_numeric (c_abs x). Proof. unfold c_abs. onum N. Qed.
Lemma on_ahd x : only_numeric (ahd A x). Proof. unfold ahd. onum N. Qed.
Lemma on_h0f_log i x : (0 <= i <= 4)%Z -> only_numeric (h0f_log A i x).
Proof.
  intros H. assert (C : i = 0%Z \/ i = 1%Z \/ i = 2%Z \/ i = 3%Z \/ i = 4%Z) by lia.
  destruct C as [-> | [-> | [-> | [-> | ->]]]]; unfold h0f_log; cbn; onum N; apply on_ok.
Qed.
Lemma on_h0f r et : only_numeric (h0f A r et).
Proof.
  unfold h0f. apply on_bind; [onum N|]. intros it.
  destruct (Z.leb_spec it 0); [onum N; apply on_h0f_log; lia|].
  destruct (Z.leb_spec 5 it).
  { rewrite (nm_zero _ N). cbn [negb]. onum N; apply on_h0f_log; lia. }
  onum N; apply on_h0f_log; lia.
Qed.
Lemma on_curv a b c d e f : only_numeric (curv A a b c d e f). Proof. unfold curv. onum N. Qed.
Lemma on_av_gain a b c d : only_numeric (av_gain A a b c d). Proof. unfold av_gain. onum N. Qed.
Lemma on_av_compress a : only_numeric (av_compress A a). Proof. unfold av_compress. onum N. Qed.
Lemma on_qlra_he a b c : only_numeric (qlra_he A a b c). Proof. unfold qlra_he. onum N. Qed.
Lemma on_the_smooth a b c d : only_numeric (the_smooth A a b c d). Proof. unfold the_smooth. onum N. Qed.
Lemma on_dl_smooth a b c : only_numeric (dl_smooth A a b c). Proof. unfold dl_smooth. onum N. Qed.
Hint Resolve on_the_smooth : onum.
Lemma on_qlra_hor a b c : only_numeric (qlra_hor A a b c). Proof. unfold qlra_hor. onum N. Qed.
Lemma on_qerfi1 q : only_numeric (qerfi1 A q). Proof. unfold qerfi1. onum N. Qed.
Lemma on_mapM {S T} (f : S -> res T) l : (forall x, only_numeric (f x)) -> only_numeric (mapM f l).
Proof. intro H. induction l; cbn; onum N. Qed.
Lemma on_qerfi q : only_numeric (qerfi A q). Proof. apply on_mapM, on_qerfi1. Qed.
Lemma on_p2p_zgnd a b c d : only_numeric (p2p_zgnd A a b c d).
Proof. unfold p2p_zgnd. onum N. apply on_c_div. Qed.
End Pure.

(** * Stages *)
Ltac hask :=
  match goal with
  | |- context [pn (setn _ _ _) _] => cbn [pn setn setz setb nkey_eqb nkey_id Pos.eqb]
  | _ => cbn [pn pz pb setn setz setb nkey_eqb nkey_id zkey_eqb zkey_id bkey_eqb bkey_id Pos.eqb]
  end;
  first [ discriminate
        | match goal with H : D _ _ _ _ ?p |- pn ?p _ <> None => apply (D_n _ _ _ _ _ _ H); reflexivity end
        | match goal with H : D _ _ _ _ ?p |- pz ?p _ <> None => apply (D_z _ _ _ _ _ _ H); reflexivity end
        | match goal with H : D _ _ _ _ ?p |- pb ?p _ <> None => apply (D_b _ _ _ _ _ _ H); reflexivity end ].
(** [D] of an updated dictionary from [D] of the dictionary it started from. *)
Ltac dset :=
  repeat first [apply D_setn | apply D_setz | apply D_setb];
  match goal with H : D _ _ _ _ ?p |- D _ _ _ _ ?p => apply (D_sub _ _ _ _ _ _ _ _ H); reflexivity end.
Ltac dsub H := apply (D_sub _ _ _ _ _ _ _ _ H); reflexivity.
Ltac ospec N :=
  first [ apply (nm_div _ N) | apply (nm_trunc _ N) | apply (nm_floor _ N) | apply (nm_sqrt _ N) | apply (nm_exp _ N)
        | apply (nm_sin _ N) | apply (nm_cos _ N) | apply (nm_log _ N) | apply (nm_npsqrt _ N) | apply (nm_powZ _ N)
        | apply (nm_pow _ N) | apply (nm_hypot _ N) | apply (nm_csqrt _ N) | apply (on_aknfe _ N) | apply (on_fht _ N)
        | apply (on_dh_at _ N) | apply (on_rough _ N) | apply (on_adiff_term _ N) | apply (on_c_div _ N)
        | apply (on_c_abs _ N) | apply (on_ahd _ N) | apply (on_h0f _ N) | apply (on_curv _ N) | apply (on_av_gain _ N)
        | apply (on_av_compress _ N) | apply (on_qlra_he _ N) | apply (on_qlra_hor _ N) | apply (on_p2p_zgnd _ N)
        | apply (on_qerfi1 _ N) | apply (on_qerfi _ N) ].
Ltac sstep N EN :=
  lazymatch goal with
  | |- safe _ (Ok _) _ => cbn [safe]
  | |- safe _ (bind (Ok _) _) _ => cbn [bind]
  | |- safe _ (bind (getn _ _) _) _ => apply safe_getn; [hask | intros ?]
  | |- safe _ (bind (getz _ _) _) _ => apply safe_getz; [hask | intros ? ?]
  | |- safe _ (bind (getb _ _) _) _ => apply safe_getb; [hask | intros ? ?]
  | |- safe _ (let (_, _) := ?x in _) _ => destruct x
  | |- safe _ (if ?b then _ else _) _ => destruct b eqn:?
  | |- safe _ (match ?x with Some _ => _ | None => _ end) _ => destruct x
  | |- safe _ (bind _ _) _ => apply (safe_num _ _ _ _ EN); [solve [ospec N] | intros ?]
  end.
Ltac sgo N EN := repeat sstep N EN.

Section Keeps.
Context {A : arith}.
(** Presence is never lost: stated with an arbitrary further list of entries. *)
Definition keeps (p q : prop A) : Prop :=
  (forall k, pn p k <> None -> pn q k <> None) /\ (forall k, pz p k <> None -> pz q k <> None) /\
  (forall k, pb p k <> None -> pb q k <> None) /\ (ppfl p <> None -> ppfl q <> None).
Lemma keeps_refl p : keeps p p. Proof. firstorder. Qed.
Lemma keeps_trans p q r : keeps p q -> keeps q r -> keeps p r. Proof. firstorder. Qed.
Lemma keeps_setn p q k v : keeps p q -> keeps p (setn q k v).
Proof. intros (a & b & c & e). repeat split; auto. intros k' H. cbn. destruct (nkey_eqb k k'); [discriminate | auto]. Qed.
Lemma keeps_setz p q k v : keeps p q -> keeps p (setz q k v).
Proof. intros (a & b & c & e). repeat split; auto. intros k' H. cbn. destruct (zkey_eqb k k'); [discriminate | auto]. Qed.
Lemma keeps_setb p q k v : keeps p q -> keeps p (setb q k v).
Proof. intros (a & b & c & e). repeat split; auto. intros k' H. cbn. destruct (bkey_eqb k k'); [discriminate | auto]. Qed.
Lemma keeps_D ns zs bs p q : keeps p q -> D A ns zs bs p -> D A ns zs bs q. Proof. firstorder. Qed.

Lemma D_app ns zs bs ns' zs' bs' (p : prop A) : D A ns zs bs p -> D A ns' zs' bs' p -> D A (ns ++ ns') (zs ++ zs') (bs ++ bs') p.
Proof.
  intros (a & b & c) (a' & b' & c'). unfold D, memn, memz, memb in *.
  repeat split; intros k; rewrite existsb_app; intros H; apply orb_prop in H; destruct H; auto.
Qed.
(** After a stage: the entries known before and those the stage provides. *)
Lemma D_join ns zs bs ns' zs' bs' (p q : prop A) : keeps p q -> D A ns zs bs p -> D A ns' zs' bs' q ->
  D A (ns ++ ns') (zs ++ zs') (bs ++ bs') q.
Proof. intros K H H'. apply D_app; [exact (keeps_D _ _ _ _ _ K H) | exact H']. Qed.
End Keeps.

Section Stages.
Context (A : arith) (N : numeric A) (E : exn -> bool) (EN : forall e, numeric_error e = true -> E e = true).

Definition inp_n : list nkey := [HG0; HG1; HE0; HE1; DL0; DL1; THE0; THE1; WN; DH; ENS; GME; ZGR; ZGI].
Definition geo_n : list nkey := [DLS0; DLS1; DLSA; DLA; THA] ++ inp_n.
Definition dif_n : list nkey := [QK; WD1; XD1; AFO; AHT; XHT] ++ geo_n.
Definition set_n : list nkey := [DMIN; XAE; EMD; AED; WIS; ASCAT1] ++ dif_n.

Lemma safe_geom p : D A inp_n [] [] p ->
  safe E (lr_geom A p) (fun q => keeps p q /\ D A geo_n [] [WLOS; WSCAT] q /\ pb q WSCAT = Some false /\ pz q = pz p).
Proof.
  intros H. unfold lr_geom. sgo N EN. split; [|split; [dset | split; reflexivity]].
  repeat first [apply keeps_setb | apply keeps_setn | apply keeps_refl].
Qed.

Lemma safe_checks p : D A geo_n [KWX] [] p ->
  safe E (lr_checks A p) (fun q => keeps p q /\ pb q = pb p).
Proof.
  intros H. unfold lr_checks. sgo N EN. split; [|reflexivity].
  repeat first [apply keeps_setz | apply keeps_refl].
Qed.

Lemma safe_adiff_init t p : D A geo_n [MDP] [] p ->
  safe E (adiff_init A t p) (fun q => keeps p q /\ D A dif_n [MDP] [] q /\ pb q = pb p).
Proof.
  intros H. unfold adiff_init. sgo N EN. split; [|split; [dset|reflexivity]].
  repeat first [apply keeps_setn | apply keeps_refl].
Qed.
Lemma safe_adiff_at t d p : D A dif_n [MDP] [] p -> safe E (adiff_at A t d p) (fun _ => True).
Proof. intros H. unfold adiff_at. sgo N EN. exact I. Qed.

Lemma safe_adiff0 p : D A geo_n [MDP] [] p ->
  safe E (adiff A (n_Z 0) p) (fun r => keeps p (snd r) /\ D A dif_n [MDP] [] (snd r) /\ pb (snd r) = pb p).
Proof.
  intros H. unfold adiff. sstep N EN. rewrite (nm_zero _ N).
  eapply safe_bind; [apply safe_adiff_init, H|]. intros q Hq. exact Hq.
Qed.
Lemma safe_adiff d p : D A dif_n [MDP] [] p ->
  safe E (adiff A d p) (fun r => keeps p (snd r) /\ D A dif_n [MDP] [] (snd r) /\ pb (snd r) = pb p).
Proof.
  intros H. unfold adiff. sstep N EN. sstep N EN.
  - eapply safe_bind; [apply safe_adiff_init; dset|]. intros q Hq. exact Hq.
  - eapply safe_bind; [apply safe_adiff_at, H|]. intros q _. cbn [safe snd]. split; [apply keeps_refl | split; [exact H | reflexivity]].
Qed.

Lemma safe_lr_diff t p : D A geo_n [MDP] [] p ->
  safe E (lr_diff A t p) (fun q => keeps p q /\ D A set_n [MDP] [] q /\ pb q = pb p).
Proof.
  intros H. unfold lr_diff. do 3 sstep N EN.
  assert (D0 : D A (DMIN :: geo_n) [MDP] [] (setn p DMIN x)) by dset.
  eapply safe_bind; [apply safe_adiff0; dsub D0|].
  intros (? & p1) (K1 & D1 & B1). cbn [snd] in *. pose proof (D_join _ _ _ _ _ _ _ _ K1 D0 D1) as D1'. clear D0 D1.
  do 6 sstep N EN.
  assert (D2 : D A ([DMIN; XAE] ++ dif_n) [MDP] [] (setn p1 XAE x1)) by dset. clear D1'.
  eapply safe_bind; [apply safe_adiff; dsub D2|].
  intros (? & p2) (K2 & D3 & B2). cbn [snd] in *. pose proof (keeps_D _ _ _ _ _ K2 D2) as D2'. clear D2 D3.
  eapply safe_bind; [apply safe_adiff; dsub D2'|].
  intros (? & p3) (K3 & D4 & B3). cbn [snd] in *. pose proof (keeps_D _ _ _ _ _ K3 D2') as D3'. clear D2' D4.
  sgo N EN. split; [|split; [dset|cbn [pb setn]; rewrite B3, B2; cbn [pb setn]; rewrite B1; reflexivity]].
  do 4 apply keeps_setn. refine (keeps_trans _ _ _ _ K3). refine (keeps_trans _ _ _ _ K2). apply keeps_setn.
  refine (keeps_trans _ _ _ _ K1). apply keeps_setn, keeps_refl.
Qed.

Lemma safe_setup t p : D A inp_n [MDP; KWX] [] p ->
  safe E (lr_setup A t p) (fun q => keeps p q /\ D A set_n [MDP; KWX] [WLOS; WSCAT] q /\ pb q WSCAT = Some false).
Proof.
  intros H. unfold lr_setup.
  eapply safe_bind; [apply safe_geom; dsub H|]. intros p1 (K1 & D1 & B1 & _).
  pose proof (D_join _ _ _ _ _ _ _ _ K1 H D1) as D1'. clear H D1.
  eapply safe_bind; [apply safe_checks; dsub D1'|]. intros p2 (K2 & B2).
  pose proof (keeps_D _ _ _ _ _ K2 D1') as D2. clear D1'.
  eapply safe_conseq; [apply safe_lr_diff; dsub D2|]. intros q (K3 & D3 & B3).
  pose proof (D_join _ _ _ _ _ _ _ _ K3 D2 D3) as D4. split; [|split].
  - exact (keeps_trans _ _ _ K1 (keeps_trans _ _ _ K2 K3)).
  - dsub D4.
  - rewrite B3, B2. exact B1.
Qed.

Lemma safe_dist d p : D A [DMIN] [MDP; KWX] [] p -> (forall m, pz p MDP = Some m -> m < 0 -> pn p DIST <> None) ->
  safe E (lr_dist A d p) (fun q => keeps p q /\ D A [DIST] [] [] q /\ pb q = pb p).
Proof.
  intros H M. unfold lr_dist. sstep N EN. specialize (M _ H0).
  destruct (Z.leb_spec 0 v).
  - sgo N EN; (split; [|split; [dset|reflexivity]]).
    all: repeat first [apply keeps_setn | apply keeps_setz | apply keeps_refl].
  - specialize (M H1). assert (HD : D A [DIST; DMIN] [MDP; KWX] [] p).
    { destruct H as (a & b & c). repeat split; try assumption. intros k Hk. apply memn_In in Hk.
      destruct Hk as [<- | Hk]; [exact M | apply a, memn_In, Hk]. }
    clear H. sgo N EN; (split; [|split; [dset|reflexivity]]).
    all: repeat first [apply keeps_setn | apply keeps_setz | apply keeps_refl].
Qed.

Lemma safe_alos_refl d p : D A set_n [] [] p -> safe E (alos_refl A d p) (fun _ => True).
Proof. intros H. unfold alos_refl. sgo N EN; exact I. Qed.
Lemma safe_alos_field d r p : D A set_n [] [] p -> safe E (alos_field A d r p) (fun _ => True).
Proof.
  intros H. unfold alos_field. do 4 sstep N EN. eapply safe_bind with (P := fun _ => True).
  - sgo N EN; exact I.
  - intros ? _. sgo N EN; exact I.
Qed.
Lemma safe_alos d p : D A set_n [] [] p -> safe E (alos A d p) (fun _ => True).
Proof.
  intros H. unfold alos. eapply safe_bind; [apply safe_alos_refl, H|]. intros (? & ?) _. do 2 sstep N EN.
  eapply safe_bind; [apply safe_alos_field, H|]. intros ? _. sgo N EN. exact I.
Qed.
Lemma safe_fit a b d0 d1 d2 a1 a2 p : D A set_n [] [] p -> safe E (lr_fit A a b d0 d1 d2 a1 a2 p) (fun _ => True).
Proof.
  intros H. unfold lr_fit. sstep N EN; [|exact I].
  eapply safe_bind; [apply safe_alos, H|]. intros ? _. sgo N EN; exact I.
Qed.
Lemma safe_los_coeffs p : D A set_n [] [] p -> safe E (lr_los_coeffs A p) (fun _ => True).
Proof.
  intros H. unfold lr_los_coeffs. do 7 sstep N EN. eapply safe_bind with (P := fun _ => True).
  { sgo N EN; exact I. }
  intros (? & ?) _. eapply safe_bind; [apply safe_alos, H|]. intros ? _.
  eapply safe_bind; [apply safe_fit, H|]. intros ? _. eapply safe_bind with (P := fun _ => True).
  { sgo N EN; exact I. }
  intros (? & ?) _. sgo N EN; exact I.
Qed.
(** aref is there afterwards if it was there before or the distance lies between 0 and the horizon and the coefficients are new. *)
Lemma safe_los p : D A (DIST :: set_n) [] [WLOS] p ->
  safe E (lr_los A p) (fun q => keeps p q /\ pb q WSCAT = pb p WSCAT /\
    (forall x dlsa, pn p DIST = Some x -> pn p DLSA = Some dlsa -> pb p WLOS = Some false ->
      (x <? dlsa)%num = true -> (n_Z 0 <? x)%num = true -> pn q AREF <> None)).
Proof.
  intros H. unfold lr_los.
  unfold getn. destruct (pn p DIST) as [x|] eqn:Ex; [|exfalso; apply (D_n _ _ _ _ _ DIST H eq_refl), Ex].
  destruct (pn p DLSA) as [y|] eqn:Ey; [|exfalso; apply (D_n _ _ _ _ _ DLSA H eq_refl), Ey].
  cbn [bind opt_res]. destruct (x <? y)%num eqn:C.
  2:{ cbn [safe]. split; [apply keeps_refl | split; [reflexivity|]]. intros x' y' Hx Hy. congruence. }
  sstep N EN. destruct v.
  { cbn [safe]. split; [apply keeps_refl | split; [reflexivity|]]. intros x' y' Hx Hy. congruence. }
  eapply safe_bind; [apply safe_los_coeffs; dsub H|]. intros ((? & ?) & ?) _.
  cbn zeta. destruct (n_Z 0 <? x)%num eqn:C2.
  - sgo N EN. split; [|split; [reflexivity|]].
    + repeat first [apply keeps_setn | apply keeps_setb | apply keeps_refl].
    + intros. cbn. discriminate.
  - sgo N EN. split; [|split; [reflexivity|]].
    + repeat first [apply keeps_setn | apply keeps_setb | apply keeps_refl].
    + intros x' y' Hx Hy _ _ C3. congruence.
Qed.
End Stages.
