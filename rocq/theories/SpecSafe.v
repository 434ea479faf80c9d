(** Vocabulary for "the documented entries are all it takes": which exceptions a call may raise. *)
From Verif Require Export SpecLr.

(** Exceptions caused by the numbers themselves, as opposed to missing entries, indices or variables. *)
Definition numeric_error (e : exn) : bool :=
  match e with
  | ZeroDivisionError | ValueError | OverflowError | NotReal => true
  | IndexError | KeyError | TypeError | UnboundLocalError => false
  end.
Definition only_numeric {T} (m : res T) : Prop := forall e, m = Err e -> numeric_error e = true.
(** ... or by an index outside the terrain profile. *)
Definition only_numeric_or_index {T} (m : res T) : Prop :=
  forall e, m = Err e -> numeric_error e = true \/ e = IndexError.

(** An arithmetic whose own operations raise only numeric errors (and in which 0 = 0). *)
Record numeric (A : arith) : Prop := Numeric {
  nm_div : forall x y : num A, only_numeric (n_div x y);
  nm_trunc : forall x : num A, only_numeric (n_trunc x);
  nm_floor : forall x : num A, only_numeric (n_floor x);
  nm_sqrt : forall x : num A, only_numeric (m_sqrt x);
  nm_exp : forall x : num A, only_numeric (m_exp x);
  nm_sin : forall x : num A, only_numeric (m_sin x);
  nm_cos : forall x : num A, only_numeric (m_cos x);
  nm_log : forall x : num A, only_numeric (np_log x);
  nm_npsqrt : forall x : num A, only_numeric (np_sqrt x);
  nm_powZ : forall (x : num A) k, only_numeric (n_powZ x k);
  nm_pow : forall x y : num A, only_numeric (n_pow x y);
  nm_hypot : forall x y : num A, only_numeric (n_hypot x y);
  nm_csqrt : forall x y : num A, only_numeric (n_csqrt x y);
  nm_round : forall (x : num A) k, only_numeric (n_round x k);
  nm_rint : forall x : num A, only_numeric (n_rint x);
  nm_zero : (@n_Z A 0 =? @n_Z A 0)%num = true }.

Section SpecSafe.
Context {A : arith}.
Local Open Scope num_scope.

(** Any two numbers compare one way or the other (no NaN). *)
Definition comparable : Prop :=
  (forall x y : num A, (x <? y) = false -> (y <=? x) = true) /\ (forall x y : num A, (x <=? y) = false -> (y <=? x) = true).

(** The listed entries exist. *)
Definition present (ns : list nkey) (zs : list zkey) (p : prop A) : Prop :=
  (forall k, In k ns -> pn p k <> None) /\ (forall k, In k zs -> pz p k <> None).

(** The entries a caller provides before an area prediction, and before a point-to-point prediction. *)
Definition area_caller : list nkey := [HG0; HG1; DH; WN; ENS; GME; ZGR; ZGI].
Definition path_caller : list nkey := [HG0; HG1; WN; ENS; GME; ZGR; ZGI].
Definition control_caller : list zkey := [KWX; LVAR; MDVARX; KLIMX].
(** Climate and variability mode are requested anew, or already there together with a pending full refresh. *)
Definition statistics_requested (p : prop A) : Prop :=
  (exists m k, pz p MDVARX = Some m /\ (0 <= m)%Z /\ pz p KLIMX = Some k /\ (0 < k)%Z) \/
  (exists lv, pz p MDVAR <> None /\ pz p KLIM <> None /\ pz p LVAR = Some lv /\ (4 < lv)%Z) \/
  (exists m lv, pz p MDVARX = Some m /\ (0 <= m)%Z /\ pz p KLIM <> None /\ pz p LVAR = Some lv /\ (4 < lv)%Z).

(** What the caller may do between calls: change values, add entries, raise lvar; but not remove entries, lower lvar or
    claim that the scatter coefficients have been computed. *)
Definition edit (p q : prop A) : Prop :=
  (forall k, pn p k <> None -> pn q k <> None) /\ (forall k, pz p k <> None -> pz q k <> None) /\
  (forall k, pb p k <> None -> pb q k <> None) /\ (ppfl p <> None -> ppfl q <> None) /\
  pb q WSCAT = pb p WSCAT /\
  (forall lv lv', pz p LVAR = Some lv -> pz q LVAR = Some lv' -> (lv <= lv')%Z).

(** Anything that can follow a first lrprop call. *)
Inductive session : prop A -> prop A -> Prop :=
  | ses_nil p : session p p
  | ses_edit p q r : edit p q -> session q r -> session p r
  | ses_lrprop d p q r : lrprop A d p = Ok q -> session q r -> session p r
  | ses_avar t l c p a q r : avar A t l c p = Ok (a, q) -> session q r -> session p r
  | ses_qlra k0 k1 p q r : qlra A k0 k1 p = Ok q -> session q r -> session p r
  | ses_qlrpfl p q r : qlrpfl A p = Ok q -> session q r -> session p r.
End SpecSafe.
Arguments comparable A : clear implicits.
