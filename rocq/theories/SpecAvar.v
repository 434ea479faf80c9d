(** Specification vocabulary for avar. *)
From Verif Require Export SpecDict.

Section SpecAvar.
Context (A : arith).
Local Open Scope num_scope.

(** Climate parameters per climate code, one row per climate (the source lists them column by column). *)
Definition climate_keys : list nkey :=
  [CV1; CV2; YV1; YV2; YV3; CSM1; CSM2; YSM1; YSM2; YSM3; CSP1; CSP2; YSP1; YSP2; YSP3;
   CSD1; ZD; CFM1; CFM2; CFM3; CFP1; CFP2; CFP3].
Definition climate_row (k : Z) : list (num A) :=
  match k with
  | 1%Z => [(-967)//100; 127//10; 144900//1; 190300//1; 133800//1;
          213//100; 1595//10; 762200//1; 123600//1; 94500//1;
          211//100; 1023//10; 636900//1; 134800//1; 95600//1;
          1224//1000; 1282//1000; 1//1; 0//1; 0//1; 1//1; 0//1; 0//1]
  | 2%Z => [(-62)//100; 919//100; 228900//1; 205200//1; 143600//1;
          266//100; 767//100; 100400//1; 172500//1; 136400//1;
          687//100; 1553//100; 138700//1; 143700//1; 98600//1;
          801//1000; 2161//1000; 1//1; 0//1; 0//1; 93//100; 31//100; 200//100]
  | 3%Z => [126//100; 155//10; 262600//1; 185200//1; 99800//1;
          611//100; 665//100; 138200//1; 242200//1; 178600//1;
          1008//100; 960//100; 165300//1; 225700//1; 129700//1;
          1380//1000; 1282//1000; 1//1; 0//1; 0//1; 1//1; 0//1; 0//1]
  | 4%Z => [(-921)//100; 905//100; 84100//1; 101100//1; 98600//1;
          198//100; 1311//100; 139100//1; 132700//1; 193500//1;
          368//100; 1593//10; 464400//1; 93100//1; 94200//1;
          1000//1000; 20//1; 1//1; 0//1; 0//1; 93//100; 19//100; 179//100]
  | 5%Z => [(-62)//100; 919//100; 228900//1; 205200//1; 143600//1;
          268//100; 716//100; 93700//1; 186800//1; 133500//1;
          475//100; 812//100; 93200//1; 135900//1; 113400//1;
          1224//1000; 1282//1000; 92//100; 25//100; 177//100; 93//100; 31//100; 200//100]
  | 6%Z => [(-39)//100; 286//100; 141700//1; 315900//1; 167400//1;
          686//100; 1038//100; 187800//1; 169600//1; 108900//1;
          858//100; 1397//100; 216000//1; 152000//1; 122700//1;
          1518//1000; 1282//1000; 1//1; 0//1; 0//1; 1//1; 0//1; 0//1]
  | 7%Z => [315//100; 8579//10; 2222000//1; 164800//1; 116300//1;
          851//100; 1698//10; 609800//1; 119900//1; 106600//1;
          843//100; 819//100; 136200//1; 188500//1; 122900//1;
          1518//1000; 1282//1000; 1//1; 0//1; 0//1; 1//1; 0//1; 0//1]
  | _ => []
  end.
(** The climate in use for a requested code. *)
Definition climate_used (klim : Z) : Z := if (1 <=? klim)%Z && (klim <=? 7)%Z then klim else 5%Z.

(** The dictionary entries that a run of avar at level [lv] leaves alone and relies on: everything computed
    by the higher levels, and what that was computed from.  lv = 1: only distance-like inputs changed;
    2: also the effective heights; 3: also the wave number; 4: also the variability mode. *)
Definition kept_n (lv : Z) : list nkey :=
  climate_keys ++ (if (lv <? 3)%Z then [WN; GM; GP] else []) ++ (if (lv <? 2)%Z then [HE0; HE1; DEXA] else []).
Definition kept_z (lv : Z) : list zkey := KLIM :: (if (lv <? 4)%Z then [MDVAR; KDV] else []).
Definition kept_b (lv : Z) : list bkey := if (lv <? 4)%Z then [WS; WL] else [].

(** A sequence of avar calls for the deviates [zs], threading the dictionary. *)
Fixpoint avar_calls (avar : num A -> num A -> num A -> prop A -> res (num A * prop A))
    (zs : list (num A * num A * num A)) (p : prop A) : res (list (num A) * prop A) :=
  match zs with
  | [] => Ok ([], p)
  | (t, l, c) :: zs =>
      let! (a, p) := avar t l c p in
      let! (r, p) := avar_calls avar zs p in
      Ok (a :: r, p)
  end.
End SpecAvar.
Arguments climate_row {A}.
