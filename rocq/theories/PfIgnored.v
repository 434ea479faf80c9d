(** The library never looks at the settings. *)
From Verif Require Import Frame SpecDict SpecIgnored PfFrame PfTilt3 PfPimterRun Scripts Arith.

(** In any arithmetic. *)
Lemma bind_assoc {S T U} (m : res S) (f : S -> res T) (g : T -> res U) : bind (bind m f) g = bind m (fun x => bind (f x) g).
Proof. destruct m; reflexivity. Qed.
Section Ignored.
Context (A : arith).
Notation num := (num A).
Notation prop := (prop A).
Local Open Scope num_scope.
Implicit Types p q : prop.
Definition out_n (k : nkey) : bool := negb (memn k settings_n).
Definition out_z (k : zkey) : bool := negb (memz k settings_z).
Lemma bs_pn p q k : but_settings p q -> out_n k = true -> pn p k = pn q k.
Proof. intros [H _] O. apply H. intro I. apply memn_In in I. unfold out_n in O. rewrite I in O. discriminate. Qed.
Lemma bs_pz p q k : but_settings p q -> out_z k = true -> pz p k = pz q k.
Proof. intros [_ [H _]] O. apply H. intro I. apply memz_In in I. unfold out_z in O. rewrite I in O. discriminate. Qed.
Lemma bs_getn p q k : but_settings p q -> out_n k = true -> getn p k = getn q k.
Proof. intros. unfold getn. rewrite (bs_pn p q) by assumption. reflexivity. Qed.
Lemma bs_getz p q k : but_settings p q -> out_z k = true -> getz p k = getz q k.
Proof. intros. unfold getz. rewrite (bs_pz p q) by assumption. reflexivity. Qed.
Lemma bs_getb p q k : but_settings p q -> getb p k = getb q k.
Proof. intros (_ & _ & H & _). unfold getb. rewrite H. reflexivity. Qed.
Lemma bs_getpfl p q : but_settings p q -> getpfl p = getpfl q.
Proof. intros (_ & _ & _ & H). unfold getpfl. rewrite H. reflexivity. Qed.
Lemma bs_setn p q k v : but_settings p q -> but_settings (setn p k v) (setn q k v).
Proof. intros (H1 & H2 & H3 & H4). repeat split; auto. intros j O. cbn. destruct (nkey_eqb k j); [reflexivity | apply H1; exact O]. Qed.
Lemma bs_setz p q k v : but_settings p q -> but_settings (setz p k v) (setz q k v).
Proof. intros (H1 & H2 & H3 & H4). repeat split; auto. intros j O. cbn. destruct (zkey_eqb k j); [reflexivity | apply H2; exact O]. Qed.
Lemma bs_setb p q k v : but_settings p q -> but_settings (setb p k v) (setb q k v).
Proof. intros (H1 & H2 & H3 & H4). repeat split; auto. intros j. cbn. destruct (bkey_eqb k j); [reflexivity | apply H3]. Qed.
Lemma bs_refl p : but_settings p p.
Proof. repeat split. Qed.

Ltac rd := repeat match goal with
  | H : but_settings ?p ?q |- context [getn ?p ?k] => rewrite (bs_getn p q k H eq_refl)
  | H : but_settings ?p ?q |- context [getz ?p ?k] => rewrite (bs_getz p q k H eq_refl)
  | H : but_settings ?p ?q |- context [getb ?p ?k] => rewrite (bs_getb p q k H)
  | H : but_settings ?p ?q |- context [getpfl ?p] => rewrite (bs_getpfl p q H)
  end.
Ltac bs := repeat first [assumption | apply bs_refl | apply bs_setn | apply bs_setz | apply bs_setb].
Ltac go lem := repeat first [progress (dsimp; rd) | sostep lem]; bs.
Definition bs2 {T} (r s : T * prop) : Prop := fst r = fst s /\ but_settings (snd r) (snd s).

Lemma bs_adiff_init th p q : but_settings p q -> same_outcome but_settings (adiff_init A th p) (adiff_init A th q).
Proof. intro H. unfold adiff_init. go fail. Qed.
Lemma bs_adiff_at th d p q : but_settings p q -> adiff_at A th d p = adiff_at A th d q.
Proof. intro H. unfold adiff_at. rd. reflexivity. Qed.
Lemma bs_adiff d p q : but_settings p q -> same_outcome bs2 (adiff A d p) (adiff A d q).
Proof.
  intro H. unfold adiff. apply so_bind_same; intro th. destruct (_ =? _).
  - eapply so_bind; [apply bs_adiff_init; exact H|]. intros a b G. cbn. split; [reflexivity | exact G].
  - rewrite (bs_adiff_at _ _ p q H). apply so_bind_same; intro. cbn. split; [reflexivity | exact H].
Qed.
Lemma bs_alos d p q : but_settings p q -> alos A d p = alos A d q.
Proof. intro H. unfold alos, alos_refl, alos_field. rd. reflexivity. Qed.
Lemma bs_ascat_h0 d th r1 r2 p q : but_settings p q -> ascat_h0 A d th r1 r2 p = ascat_h0 A d th r1 r2 q.
Proof. intro H. unfold ascat_h0. rd. reflexivity. Qed.
Ltac st := match goal with
  | H : but_settings ?p ?q |- context [ascat_h0 A ?d ?th ?r1 ?r2 ?p] => rewrite (bs_ascat_h0 d th r1 r2 p q H)
  | H : but_settings ?p ?q |- context [alos A ?d ?p] => rewrite (bs_alos d p q H)
  | |- same_outcome _ (bind ?m ?k) (bind ?m ?k') => apply so_bind_same; intros ?
  | |- same_outcome _ (bind (if ?b then _ else _) _) _ => destruct b
  | |- same_outcome _ (if ?b then _ else _) _ => destruct b
  | |- same_outcome _ (bind (bind _ _) _) _ => rewrite !bind_assoc
  | |- same_outcome _ (bind (Ok _) _) _ => cbn [bind]
  | |- same_outcome _ (bind (let (_, _) := ?o in _) _) _ => destruct o
  | |- same_outcome _ (let (_, _) := ?o in _) (let (_, _) := ?o in _) => destruct o
  | |- same_outcome _ (Ok _) (Ok _) => cbn [same_outcome]
  end; cbn beta.
Ltac run := repeat first [progress (cbv zeta; dsimp; rd) | st].
Lemma bs_ascat d p q : but_settings p q -> same_outcome but_settings (ascat A d p) (ascat A d q).
Proof.
  intro H. unfold ascat. rd. apply so_bind_same; intro h0s. eapply (so_bind bs2).
  - destruct (_ <? _); [cbn; split; [reflexivity | exact H]|]. rd. do 6 (apply so_bind_same; intro). cbv zeta. cbn beta.
    match goal with |- context [if ?b then setn p ASCAT1 _ else _] => destruct b end.
    + rewrite (bs_ascat_h0 _ _ _ _ _ _ (bs_setn p q ASCAT1 #1001 H)). apply so_bind_same; intro. rewrite (bs_getn _ _ ASCAT1 (bs_setn p q ASCAT1 #1001 H) eq_refl). apply so_bind_same; intro. cbn [same_outcome].
      split; [reflexivity|]. cbn [snd]. destruct (negb _); bs.
    + rewrite (bs_ascat_h0 _ _ _ _ _ _ H). rd. do 2 (apply so_bind_same; intro). split; [reflexivity|]. cbn [snd]. destruct (negb _); bs.
  - intros [h0 p1] [h1 q1] [E G]. cbn [fst snd] in E, G. subst h1. run. bs.
Qed.
Lemma bs_lr_geom p q : but_settings p q -> same_outcome but_settings (lr_geom A p) (lr_geom A q).
Proof. intro H. unfold lr_geom. run. bs. Qed.
Lemma bs_lr_checks p q : but_settings p q -> same_outcome but_settings (lr_checks A p) (lr_checks A q).
Proof. intro H. unfold lr_checks. run. bs. Qed.
Lemma bs_lr_diff th p q : but_settings p q -> same_outcome but_settings (lr_diff A th p) (lr_diff A th q).
Proof.
  intro H. unfold lr_diff. rd. do 3 (apply so_bind_same; intro). cbv zeta. eapply so_bind; [apply bs_adiff; bs|]. intros [x p1] [y q1] [E G]. cbn [fst snd] in E, G. subst y.
  run. eapply so_bind; [apply bs_adiff; bs|]. intros [x1 p2] [y q2] [E G2]. cbn [fst snd] in E, G2. subst y. eapply so_bind; [apply bs_adiff; bs|]. intros [x2 p3] [y q3] [E G3]. cbn [fst snd] in E, G3. subst y.
  run. bs.
Qed.
Lemma bs_lr_setup th p q : but_settings p q -> same_outcome but_settings (lr_setup A th p) (lr_setup A th q).
Proof.
  intro H. unfold lr_setup. eapply so_bind; [apply bs_lr_geom; exact H|]. intros p1 q1 H1. eapply so_bind; [apply bs_lr_checks; exact H1|]. intros p2 q2 H2. apply bs_lr_diff. exact H2.
Qed.
Lemma bs_lr_dist d p q : but_settings p q -> same_outcome but_settings (lr_dist A d p) (lr_dist A d q).
Proof.
  intro H. unfold lr_dist. rd. apply so_bind_same; intro m. cbv zeta.
  assert (G : but_settings (if (0 <=? m)%Z then setn (setz p MDP 0) DIST d else p) (if (0 <=? m)%Z then setn (setz q MDP 0) DIST d else q)) by (destruct (0 <=? m)%Z; bs).
  revert G. generalize (if (0 <=? m)%Z then setn (setz p MDP 0) DIST d else p) (if (0 <=? m)%Z then setn (setz q MDP 0) DIST d else q). intros p1 q1 G. run; bs.
Qed.
Lemma bs_lr_fit aed emd d0 d1 d2 a1 a2 p q : but_settings p q -> lr_fit A aed emd d0 d1 d2 a1 a2 p = lr_fit A aed emd d0 d1 d2 a1 a2 q.
Proof. intro H. unfold lr_fit. rewrite (bs_alos d0 p q H). reflexivity. Qed.
Lemma bs_lr_los_coeffs p q : but_settings p q -> lr_los_coeffs A p = lr_los_coeffs A q.
Proof.
  intro H. unfold lr_los_coeffs. rd. repeat (match goal with |- bind ?m _ = bind ?m _ => destruct m; [cbn [bind] | reflexivity] end).
  repeat match goal with |- context [alos A ?d p] => rewrite (bs_alos d p q H) | |- context [lr_fit A ?a ?b ?c ?d ?e ?f ?g p] => rewrite (bs_lr_fit a b c d e f g p q H) | |- (let (_, _) := ?o in _) = _ => destruct o | |- bind ?m _ = bind ?m _ => destruct m; [cbn [bind] | reflexivity] end. reflexivity.
Qed.
Lemma bs_lr_los p q : but_settings p q -> same_outcome but_settings (lr_los A p) (lr_los A q).
Proof. intro H. unfold lr_los. rewrite (bs_lr_los_coeffs p q H). repeat first [progress (cbv zeta; dsimp; rd) | st]; bs. Qed.
Lemma bs_lr_scat_setup p q : but_settings p q -> same_outcome but_settings (lr_scat_setup A p) (lr_scat_setup A q).
Proof.
  intro H. unfold lr_scat_setup. rd. do 5 (apply so_bind_same; intro). cbv zeta. apply so_bind_same. intros [ad rr]. dsimp. rd. apply so_bind_same; intro. dsimp. rd. apply so_bind_same; intro.
  eapply so_bind; [apply bs_ascat; bs|]. intros p1 q1 H1. rd. apply so_bind_same; intro. eapply so_bind; [apply bs_ascat; exact H1|]. intros p2 q2 H2. rd. do 3 (apply so_bind_same; intro).
  eapply (so_bind but_settings); [run; bs|]. intros. cbn. bs.
Qed.
Lemma bs_lr_scat p q : but_settings p q -> same_outcome but_settings (lr_scat A p) (lr_scat A q).
Proof.
  intro H. unfold lr_scat. rd. do 2 (apply so_bind_same; intro). destruct (_ || _); [|exact H]. rd. apply so_bind_same; intros [|]; [cbn [bind]; run; bs|]. eapply so_bind; [apply bs_lr_scat_setup; exact H|]. intros p1 q1 H1. run; bs.
Qed.
Lemma bs_lrprop d p q : but_settings p q -> same_outcome but_settings (lrprop A d p) (lrprop A d q).
Proof.
  intro H. unfold lrprop. rd. do 2 (apply so_bind_same; intro).
  eapply (so_bind but_settings); [destruct (negb _); [apply bs_lr_setup; exact H | exact H]|]. intros p1 q1 H1. eapply so_bind; [apply bs_lr_dist; exact H1|]. intros p2 q2 H2.
  eapply so_bind; [apply bs_lr_los; exact H2|]. intros p3 q3 H3. eapply so_bind; [apply bs_lr_scat; exact H3|]. intros p4 q4 H4. run. bs.
Qed.
(** avar *)
Lemma bs_av_klim p q : but_settings p q -> same_outcome but_settings (av_klim A p) (av_klim A q).
Proof.
  intro H. unfold av_klim. rd. apply so_bind_same; intro kl. eapply (so_bind but_settings).
  { run; bs. }
  intros p1 q1 H1. rd. apply so_bind_same; intro k. revert p1 q1 H1. induction (climate_tables A) as [|[x t] l IH]; intros p1 q1 H1; cbn [foldM]; [exact H1|].
  eapply (so_bind but_settings); [cbn [fst snd]; run; bs | exact IH].
Qed.
Lemma bs_av_mode p q : but_settings p q -> same_outcome but_settings (av_mode A p) (av_mode A q).
Proof. intro H. unfold av_mode. run; bs. Qed.
Lemma bs_av_freq p q : but_settings p q -> same_outcome but_settings (av_freq A p) (av_freq A q).
Proof. intro H. unfold av_freq. run; bs. Qed.
Lemma bs_av_he th p q : but_settings p q -> same_outcome but_settings (av_he A th p) (av_he A th q).
Proof. intro H. unfold av_he. run; bs. Qed.
Lemma bs_av_dist p q : but_settings p q -> same_outcome but_settings (av_dist A p) (av_dist A q).
Proof. intro H. unfold av_dist. assert (E : av_de A p = av_de A q) by (unfold av_de; rd; reflexivity). rewrite E. run; bs. Qed.
Lemma bs_av_refresh th p q : but_settings p q -> same_outcome but_settings (av_refresh A th p) (av_refresh A th q).
Proof.
  intro H. unfold av_refresh. rd. apply so_bind_same; intro lv. destruct (0 <? lv)%Z; [|exact H].
  eapply (so_bind but_settings); [destruct (_ <? _)%Z; [apply bs_av_klim | ]; exact H|]. intros p1 q1 H1.
  eapply (so_bind but_settings); [destruct (_ <? _)%Z; [apply bs_av_mode | ]; exact H1|]. intros p2 q2 H2.
  eapply (so_bind but_settings); [destruct (_ <? _)%Z; [apply bs_av_freq | ]; exact H2|]. intros p3 q3 H3.
  eapply (so_bind but_settings); [destruct (_ <? _)%Z; [apply bs_av_he | ]; exact H3|]. intros p4 q4 H4. apply bs_av_dist. exact H4.
Qed.
Lemma bs_avar a b c p q : but_settings p q -> same_outcome bs2 (avar A a b c p) (avar A a b c q).
Proof.
  intro H. unfold avar. apply so_bind_same; intro th. eapply so_bind; [apply bs_av_refresh; exact H|]. intros p1 q1 H1. unfold av_quant. rd. apply so_bind_same; intro kd.
  destruct (av_fold A kd a b c) as [[zt zl] zc]. cbv zeta. eapply (so_bind but_settings); [run; bs|]. intros p2 q2 H2.
  assert (E : av_sgt A zt p2 = av_sgt A zt q2) by (unfold av_sgt; rd; reflexivity). rewrite E. apply so_bind_same; intro sg.
  assert (E2 : av_raw A kd zt zl zc sg p2 = av_raw A kd zt zl zc sg q2) by (unfold av_raw; rd; reflexivity). rewrite E2. do 2 (apply so_bind_same; intro). cbn. split; [reflexivity | exact H2].
Qed.
(** Preparation *)
Lemma bs_prep_control m p q : but_settings p q -> same_outcome but_settings (prep_control A m p) (prep_control A m q).
Proof.
  intro H. unfold prep_control. do 2 (dsimp; rd; apply so_bind_same; intro). eapply (so_bind but_settings); [run; bs|]. intros p1 q1 H1. run; bs.
Qed.
Lemma bs_qlra k0 k1 p q : but_settings p q -> same_outcome but_settings (qlra A k0 k1 p) (qlra A k0 k1 q).
Proof. intro H. unfold qlra. run. all: apply bs_prep_control; bs. Qed.
Lemma bs_qlrpfl_geom p q : but_settings p q -> same_outcome but_settings (qlrpfl_geom A p) (qlrpfl_geom A q).
Proof.
  intro H. unfold qlrpfl_geom. rd. apply so_bind_same; intro f. cbv zeta. do 3 (dsimp; rd; apply so_bind_same; intro). apply so_bind_same; intros [[[? ?] ?] ?]. apply so_bind_same; intro. apply so_bind_same; intros [[[? ?] [? ?]] [? ?]]. cbn. bs.
Qed.
Lemma bs_qlrpfl p q : but_settings p q -> same_outcome but_settings (qlrpfl A p) (qlrpfl A q).
Proof.
  intro H. unfold qlrpfl. eapply so_bind; [apply bs_qlrpfl_geom; exact H|]. intros p1 q1 H1. eapply so_bind; [apply bs_prep_control; exact H1|]. intros p2 q2 H2. apply bs_lrprop. exact H2.
Qed.
(** pimter.py *)
Lemma bs_pimter_loop fm zr zc l : forall p q, but_settings p q -> pimter_loop A fm zr zc l p = pimter_loop A fm zr zc l q.
Proof.
  induction l as [|h l IH]; intros p q H; cbn [pimter_loop]; [reflexivity|]. cbv zeta. apply so_eq. eapply so_bind; [apply bs_qlrpfl; bs|]. intros p1 q1 H1. rd. do 3 (apply so_bind_same; intro).
  eapply so_bind; [apply bs_avar; exact H1|]. intros [x p2] [y q2] [E H2]. cbn [fst snd] in E, H2. subst y. rewrite (IH p2 q2 H2). apply eq_so. reflexivity.
Qed.
Lemma pimter_spacing (z d d' : list num) (a b : num) : length d = length d' -> nth_error d 0 = Some a -> nth_error d' 0 = Some a -> nth_error d 1 = Some b -> nth_error d' 1 = Some b ->
  numeric_last d -> numeric_last d' -> run_itmlogic A z d = run_itmlogic A z d'.
Proof.
  intros L A0 A1 B0 B1 (u & U & x & X) (w & W & y & Y). unfold run_itmlogic. destruct (pimter_dev A) as [zd|]; [cbn [bind] | reflexivity].
  assert (P : same_outcome bs2 (pimter_prepare A z d) (pimter_prepare A z d')).
  { unfold pimter_prepare. cbv zeta. apply so_bind_same; intro p. rewrite (pyget_at d 1 b B0 : pyget d 1 = _), (pyget_at d 0 a A0 : pyget d 0 = _), (pyget_at d' 1 b B1 : pyget d' 1 = _), (pyget_at d' 0 a A1 : pyget d' 0 = _). cbn [bind].
    rewrite (pyget_last d u U), (pyget_last d' w W). cbn [bind]. change num with (Arith.num A) in *. rewrite X, Y. cbn [bind]. rewrite L. apply so_bind_same; intro wn. apply so_bind_same; intros [zr zi]. cbn. split; [reflexivity|].
    cbn [snd]. bs. split; [intros k N; cbn; destruct k; try reflexivity; exfalso; apply N; cbn; tauto | repeat split]. }
  apply so_eq. eapply so_bind; [exact P|]. intros [f p] [g q] [E H]. cbn [fst snd] in E, H. subst g. rewrite (bs_pimter_loop f _ _ _ p q H). apply eq_so. reflexivity.
Qed.
End Ignored.
