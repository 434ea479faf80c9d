(** Reference formulas for the quantile computed by avar, in terms of the dictionary's values. *)
From Verif Require Export SpecAvar SpecAtten Stats.
Open Scope R_scope.

(** Final compression of negative attenuations. *)
Definition squash (a : R) : R := if Rlt_dec a 0 then a * (29 - a) / (29 - 10 * a) else a.

(** Standard deviation of the time variability at deviate z. *)
Definition time_dev (v : nkey -> R) (z : R) : R :=
  if Rlt_dec z 0 then v SGTM else if Rle_dec z (v ZD) then v SGTP else v SGTD + v TGTD / z.
(** Variance of the situation variability for deviates t, l, c. *)
Definition situation_var (v : nkey -> R) (t l c : R) : R :=
  v VS0 + (time_dev v t * t) ^ 2 / (7.8 + c ^ 2) + (v SGL * l) ^ 2 / (24 + c ^ 2).
(** The quantile before compression, for the variability modes 0 (single message), 1 (accidental), 2 (mobile) and
    3 (broadcast). *)
Definition raw_quantile (v : nkey -> R) (mode : Z) (t l c : R) : R :=
  let s := time_dev v in let sl := v SGL in
  v AREF - v VMD -
  (if (mode =? 0)%Z then c * sqrt (s c ^ 2 + sl ^ 2 + situation_var v c c c)
   else if (mode =? 1)%Z then s t * t + c * sqrt (sl ^ 2 + situation_var v t c c)
   else if (mode =? 2)%Z then t * sqrt (s t ^ 2 + sl ^ 2) + c * sqrt (situation_var v t t c)
   else s t * t + sl * l + c * sqrt (situation_var v t l c)).
Definition quantile_keys : list nkey := [AREF; VMD; VS0; SGL; SGTM; SGTP; SGTD; TGTD; ZD].

(** Everything avar caches in the dictionary. *)
Definition cache_n : list nkey := climate_keys ++ [GM; GP; DEXA; VMD; SGTM; SGTP; SGTD; TGTD; SGL; VS0].

(** Dictionaries on which avar's statistics have been set up: those about to be set up completely (lvar > 4),
    and those obtained from one by a call of avar followed by edits that leave the cached entries alone. *)
Inductive stat_state : prop RA -> Prop :=
  | st_full p lv : pz p LVAR = Some lv -> (4 < lv)%Z -> stat_state p
  | st_next p t l c a q q' : stat_state p -> avar RA t l c p = Ok (a, q) ->
      agree_on cache_n [KLIM; KDV] [WS; WL] q q' -> stat_state q'.

(** The documented inputs of avar, in their documented ranges. *)
Definition avar_inputs (p : prop RA) : Prop :=
  exists lv klim kwx mdvar, pz p LVAR = Some lv /\ pz p KLIM = Some klim /\ pz p KWX = Some kwx /\ pz p MDVAR = Some mdvar /\
  exists v, values p [WN; HE0; HE1; DIST; DH; AREF] v /\
    0 < v WN /\ 0 <= v HE0 /\ 0 <= v HE1 /\ 0 <= v DIST /\ 0 <= v DH.
