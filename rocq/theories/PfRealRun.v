(** Running the model over the exact reals on concrete numbers: every intermediate value is enclosed in a
    narrow interval, every branch and every domain condition is decided from the enclosures. *)
From Interval Require Import Tactic.
From Verif Require Import Frame SpecRegime Scripts.
Open Scope R_scope.

Definition runs {T} (m : res T) (Q : T -> Prop) : Prop := exists r, m = Ok r /\ Q r.
Lemma runs_ok {T} (a : T) (Q : T -> Prop) : Q a -> runs (Ok a) Q.
Proof. intro H. exists a. auto. Qed.
Lemma runs_eq {T} (m : res T) a (Q : T -> Prop) : m = Ok a -> Q a -> runs m Q.
Proof. intros -> H. exists a. auto. Qed.
Lemma runs_bind {S T} (m : res S) (k : S -> res T) Q : runs m (fun a => runs (k a) Q) -> runs (bind m k) Q.
Proof. intros [a [-> [r [E H]]]]. exists r. auto. Qed.
Lemma runs_div (x y : R) (Q : R -> Prop) : y <> 0 -> (forall v, v = x / y -> Q v) -> runs (r_div x y) Q.
Proof. intros N H. exists (x / y). split; [apply r_div_ok; exact N | apply H; reflexivity]. Qed.
Lemma runs_sqrt e (x : R) (Q : R -> Prop) : 0 <= x -> (forall v, v = sqrt x -> Q v) -> runs (r_sqrt e x) Q.
Proof. intros N H. exists (sqrt x). split; [apply r_sqrt_ok; exact N | apply H; reflexivity]. Qed.
Lemma runs_log (x : R) (Q : R -> Prop) : 0 < x -> (forall v, v = ln x -> Q v) -> runs (r_log x) Q.
Proof. intros N H. exists (ln x). split; [apply r_log_ok; exact N | apply H; reflexivity]. Qed.
Lemma runs_exp (x : R) (Q : R -> Prop) : (forall v, v = exp x -> Q v) -> runs (Ok (exp x)) Q.
Proof. intros H. exists (exp x). split; [reflexivity | apply H; reflexivity]. Qed.
Lemma runs_val (x : R) (Q : R -> Prop) : (forall v, v = x -> Q v) -> runs (Ok x) Q.
Proof. intros H. exists x. split; [reflexivity | apply H; reflexivity]. Qed.
Lemma runs_pow (x y : R) (Q : R -> Prop) : 0 < x -> (forall v, v = exp (y * ln x) -> Q v) -> runs (r_pow x y) Q.
Proof. intros N H. exists (Rpower x y). split; [apply r_pow_ok; exact N | apply H; reflexivity]. Qed.
Lemma runs_powZ (x : R) k (Q : R -> Prop) : (forall v, v = x ^ Pos.to_nat k -> Q v) -> runs (r_powZ x (Zpos k)) Q.
Proof. intros H. exists (x ^ Pos.to_nat k). split; [reflexivity | apply H; reflexivity]. Qed.
Lemma pymax_hi (a b : R) : a < b -> @pymax RA a b = b.
Proof. intro H. unfold pymax. cbn. rewrite (proj2 (r_ltb_true a b)) by exact H. reflexivity. Qed.
Lemma pymax_lo (a b : R) : b <= a -> @pymax RA a b = a.
Proof. intro H. unfold pymax. cbn. rewrite (proj2 (r_ltb_false a b)) by exact H. reflexivity. Qed.
Lemma pymin_hi (a b : R) : b < a -> @pymin RA a b = b.
Proof. intro H. unfold pymin. cbn. rewrite (proj2 (r_ltb_true b a)) by exact H. reflexivity. Qed.
Lemma pymin_lo (a b : R) : a <= b -> @pymin RA a b = a.
Proof. intro H. unfold pymin. cbn. rewrite (proj2 (r_ltb_false b a)) by exact H. reflexivity. Qed.

Lemma rfloor_eq v z : IZR z <= v < IZR z + 1 -> rfloor v = z.
Proof.
  intros [H1 H2]. unfold rfloor. destruct (base_Int_part v) as [K1 K2].
  apply Z.le_antisymm.
  - apply Z.lt_succ_r. apply lt_IZR. rewrite succ_IZR. lra.
  - apply Z.lt_succ_r. apply lt_IZR. rewrite succ_IZR. lra.
Qed.
Ltac rcb := cbn [RA num n_Z n_lit n_add n_sub n_mul n_opp n_abs n_div n_ltb n_leb n_eqb n_trunc n_floor m_sqrt m_exp
       m_sin m_cos np_log np_sqrt n_powZ n_pow n_hypot n_csqrt n_round n_rint fst snd c_add c_sub c_mul c_real c_abs].
Ltac ival := first [ interval with (i_prec 60) | apply Rminus_lt; interval with (i_prec 60) | apply Rminus_le; interval with (i_prec 60) ].
(** Name a value, keeping only its enclosure. *)
Ltac enclose := let v := fresh "v" in let E := fresh "E" in intros v E;
  match type of E with v = ?t => let t' := eval cbn [Pos.to_nat Pos.iter_op Init.Nat.add] in t in
    let I := fresh "I" in interval_intro t' with (i_prec 60) as I; change t with t' in E; rewrite <- E in I; clear E end.
(** Name compound stored values. *)
Ltac name_val e := match e with
  | (_ + _)%R => idtac | (_ - _)%R => idtac | (_ * _)%R => idtac | (- _)%R => idtac end;
  let I := fresh "I" in interval_intro e with (i_prec 60) as I; let v := fresh "v" in set (v := e) in *; clearbody v.
Ltac rname := match goal with
  | |- context [@setn RA _ _ ?e] => name_val e
  | |- runs (Ok ?e) _ => name_val e
  | |- runs (Ok (?e, _)) _ => name_val e
  end.
Ltac rdec := match goal with
  | |- context [r_ltb ?a ?b] => first [ rewrite (proj2 (r_ltb_true a b)) by ival | rewrite (proj2 (r_ltb_false a b)) by ival ]
  | |- context [r_leb ?a ?b] => first [ rewrite (proj2 (r_leb_true a b)) by ival | rewrite (proj2 (r_leb_false a b)) by ival ]
  | |- context [r_eqb ?a ?a] => rewrite (proj2 (r_eqb_true a a)) by reflexivity
  | |- context [r_eqb ?a ?b] => first [ rewrite (proj2 (r_eqb_true a b)) by lra |  rewrite (proj2 (r_eqb_false a b)) by (first [apply Rgt_not_eq; ival | apply Rlt_not_eq; ival])]
  | |- context [rfloor ?v] => first [ rewrite (rfloor_eq v 0) by (split; ival) | rewrite (rfloor_eq v 1) by (split; ival)
      | rewrite (rfloor_eq v 2) by (split; ival) | rewrite (rfloor_eq v 3) by (split; ival) | rewrite (rfloor_eq v 4) by (split; ival) ]
  | |- context [@pymax RA ?a ?b] => first [ rewrite (pymax_hi a b) by ival | rewrite (pymax_lo a b) by ival ]
  | |- context [@pymin RA ?a ?b] => first [ rewrite (pymin_hi a b) by ival | rewrite (pymin_lo a b) by ival ]
  end.
Ltac rstep := cbv beta zeta; match goal with
  | |- runs (bind _ _) _ => apply runs_bind; match goal with |- runs _ ?Q => let k := fresh "k" in set (k := Q) end
  | |- ?k _ => is_var k; unfold k; clear k
  | |- runs (lr_setup RA _ _) _ => unfold lr_setup
  | |- runs (lr_geom RA _) _ => unfold lr_geom
  | |- runs (lr_checks RA _) _ => unfold lr_checks, warn_max, warn_set
  | |- runs (lr_diff RA _ _) _ => unfold lr_diff
  | |- runs (lr_dist RA _ _) _ => unfold lr_dist, warn_max, warn_set
  | |- runs (lr_los RA _) _ => unfold lr_los
  | |- runs (lr_los_coeffs RA _) _ => unfold lr_los_coeffs
  | |- runs (lr_fit RA _ _ _ _ _ _ _ _) _ => unfold lr_fit
  | |- runs (lr_scat RA _) _ => unfold lr_scat
  | |- runs (lr_scat_setup RA _) _ => unfold lr_scat_setup
  | |- runs (adiff RA _ _) _ => unfold adiff
  | |- runs (adiff_init RA _ _) _ => unfold adiff_init
  | |- runs (adiff_at RA _ _ _) _ => unfold adiff_at
  | |- runs (adiff_term RA _ _ _ _ _) _ => unfold adiff_term
  | |- runs (dh_at RA _ _) _ => unfold dh_at
  | |- runs (rough RA _) _ => unfold rough
  | |- runs (fht RA _ _) _ => unfold fht
  | |- runs (aknfe RA _) _ => unfold aknfe
  | |- runs (alos RA _ _) _ => unfold alos
  | |- runs (alos_refl RA _ _) _ => unfold alos_refl
  | |- runs (alos_field RA _ _ _) _ => unfold alos_field
  | |- runs (c_div _ _) _ => unfold c_div
  | |- runs (c_abs _) _ => unfold c_abs
  | |- runs (ascat RA _ _) _ => unfold ascat
  | |- runs (ascat_h0 RA _ _ _ _ _) _ => unfold ascat_h0
  | |- runs (h0f RA _ _) _ => unfold h0f
  | |- runs (h0f_log RA _ _) _ => unfold h0f_log
  | |- runs (ahd RA _) _ => unfold ahd, ahd_row
  | |- runs (getn _ _) _ => eapply runs_eq; [reflexivity|]
  | |- runs (getz _ _) _ => eapply runs_eq; [reflexivity|]
  | |- runs (getb _ _) _ => eapply runs_eq; [reflexivity|]
  | |- runs (r_div _ _) _ => apply runs_div; [first [apply Rgt_not_eq; ival | apply Rlt_not_eq; ival]| enclose]
  | |- runs (r_sqrt _ _) _ => apply runs_sqrt; [ival | enclose]
  | |- runs (r_log _) _ => apply runs_log; [ival | enclose]
  | |- runs (pyget _ _) _ => eapply runs_eq; [reflexivity|]
  | |- runs (Ok (exp _)) _ => apply runs_exp; enclose
  | |- runs (Ok (cos _)) _ => apply runs_val; enclose
  | |- runs (Ok (sin _)) _ => apply runs_val; enclose
  | |- runs (Ok (sqrt _)) _ => apply runs_val; enclose
  | |- runs (r_pow _ _) _ => apply runs_pow; [ival | enclose]
  | |- runs (r_powZ _ (Zpos _)) _ => apply runs_powZ; enclose
  | |- runs (if true then _ else _) _ => cbv iota
  | |- runs (if false then _ else _) _ => cbv iota
  | |- runs (Ok _) _ => apply runs_ok
  | |- runs (let (_, _) := _ in _) _ => cbv iota
  end.
Ltac zdec := cbn [orb andb negb Z.eqb Z.leb Z.ltb Z.compare Pos.eqb Pos.compare Pos.compare_cont Z.max Z.sub Z.add Z.opp Z.pos_sub].
Ltac rgo := repeat (rcb; repeat rdec; zdec; repeat rname; rstep).
Definition case_real : prop RA :=
  setz (setz (fold_left (fun (p : prop RA) (kv : nkey * R) => setn p (fst kv) (snd kv))
    [(HG0, 5); (HG1, 12); (HE0, 5); (HE1, 12); (DL0, 8000); (DL1, 13000); (THE0, -1/1000); (THE1, -2/1000);
     (WN, 2); (ENS, 301); (DH, 50); (GME, 1177 / 10000000000); (ZGR, 2415 / 10000); (ZGI, -144/1000)] (empty_prop RA)) MDP 1) KWX 0.
Definition above (p : prop RA) (k : nkey) (x : R) : Prop := exists v : R, pn p k = Some v /\ x < v.
Lemma case_real_runs : exists p0, lrprop RA 0 case_real = Ok p0 /\ pb p0 WLOS = Some true /\ pb p0 WSCAT = Some true /\
  above p0 AK1 0 /\ above p0 AK2 0 /\ above p0 AED 0 /\ above p0 EMD 0 /\ above p0 DLSA 22000 /\ above p0 DX 22000 /\
  pn p0 DLA = Some (8000 + 13000) /\ exists a b : R, pn p0 EMD = Some a /\ pn p0 EMS = Some b /\ b < a.
Proof.
  match goal with |- exists p, ?m = Ok p /\ @?P p => change (runs m P) end.
  unfold case_real. cbn [fold_left fst snd]. unfold lrprop. rgo. unfold above.
  repeat split; try reflexivity; try (eexists; (split; [reflexivity | ival])).
  eexists; eexists. split; [reflexivity|]. split; [reflexivity | ival].
Qed.
