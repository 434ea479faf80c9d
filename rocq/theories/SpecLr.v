(** Specification vocabulary for lrprop's error indicator. *)
From Verif Require Export SpecDict Scripts.

(** The worst of the previous code [k] and the codes of the violated checks. *)
Fixpoint worst (k : Z) (checks : list (bool * Z)) : Z :=
  match checks with
  | [] => k
  | (violated, code) :: l => worst (if violated then Z.max k code else k) l
  end.

Section SpecLr.
Context {A : arith}.
Local Open Scope num_scope.

(** [x] outside the closed range lo..hi. *)
Definition outside (x lo hi : num A) : bool := (x <? lo) || (x >? hi).

(** The checks of one terminal: structural height [hg], take-off angle [the], horizon distance [dl] and
    smooth-earth horizon distance [dls]; [dl'] is the distance the upper limit 3*dls is tested on. *)
Definition terminal_checks (hg the dl dls dl' : num A) : list (bool * Z) :=
  [ (outside hg #1 #1000, 1%Z);
    ((n_abs the >? 2 // 10) || (dl <? 1 // 10 * dls) || (dl' >? #3 * dls), 3%Z);
    (outside hg (5 // 10) #3000, 4%Z) ].

(** The checks of the environment. *)
Definition env_checks (wn ens gme zr zi : num A) : list (bool * Z) :=
  [ (outside wn (838 // 1000) #210, 1%Z);
    (outside ens #250 #400 || outside gme (75 // 1000000000) (250 // 1000000000) || (zr <? n_abs zi)
     || outside wn (419 // 1000) #420, 4%Z) ].

(** The checks of the distance, made only for a positive distance. *)
Definition dist_checks (dist dmin : num A) : list (bool * Z) :=
  if dist >? #0 then
    [ (dist >? 1000000 // 1, 1%Z); (dist <? dmin, 3%Z); (outside dist (1000 // 1) (2000000 // 1), 4%Z) ]
  else [].

(** Calls of lrprop at the distances [ds], one after the other, threading the dictionary. *)
Fixpoint lr_calls (ds : list (num A)) (p : prop A) : res (prop A) :=
  match ds with
  | [] => Ok p
  | d :: l => let! p := lrprop A d p in lr_calls l p
  end.
(** Distances beyond / within the smooth-earth horizon distance [dlsa] (all comparisons decided, i.e. no
    NaN). *)
Definition beyond (dlsa d : num A) : Prop := (d <? dlsa) = false /\ (d >=? dlsa) = true.
Definition within (dlsa d : num A) : Prop :=
  (d >? #0) = true /\ (d <=? #0) = false /\ (d <? dlsa) = true /\ (d >=? dlsa) = false.

(** What a user program may do to the dictionary: edit any entry but kwx, or call the API. *)
Inductive api_step : prop A -> prop A -> Prop :=
  | step_edit p q : pz q KWX = pz p KWX -> api_step p q
  | step_lrprop d p q : lrprop A d p = Ok q -> api_step p q
  | step_avar zzt zzl zzc p a q : avar A zzt zzl zzc p = Ok (a, q) -> api_step p q
  | step_qlra kst0 kst1 p q : qlra A kst0 kst1 p = Ok q -> api_step p q
  | step_qlrpfl p q : qlrpfl A p = Ok q -> api_step p q.
Inductive api_run : prop A -> prop A -> Prop :=
  | run_nil p : api_run p p
  | run_cons p q r : api_step p q -> api_run q r -> api_run p r.
End SpecLr.
Arguments lr_calls A ds p : clear implicits.
