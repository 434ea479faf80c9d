(** The dictionary [prop] that every itmlogic routine reads and updates.

    Keys are split by the type of their value.  Two-element lists (hg, he, dl, the, dls) are two keys
    each; the complex entry 'zgnd' is the pair of its real and imaginary part (a real zgnd has imaginary
    part 0, as [x.imag] of a Python float).  The profile 'pfl' is [np; xi; z...] with np an int.
    Simplifications: lists are taken to have exactly two elements; on an exception the partially updated
    dictionary is not observable. *)
From Verif Require Export Arith.

Inductive nkey : Set :=
  (* inputs *)
  | HG0 | HG1 | HE0 | HE1 | DL0 | DL1 | THE0 | THE1 | DIST | WN | DH | ENS | GME | ZGR | ZGI
  (* lrprop *)
  | DLS0 | DLS1 | DLSA | DLA | THA | DMIN | XAE | EMD | AED | WIS | ASCAT1 | AK1 | AK2 | AEL | AREF
  | AD | RR | ETQ | H0S | EMS | DX | AES
  (* adiff *)
  | QK | WD1 | XD1 | AFO | AHT | XHT
  (* avar *)
  | CV1 | CV2 | YV1 | YV2 | YV3 | CSM1 | CSM2 | YSM1 | YSM2 | YSM3 | CSP1 | CSP2 | YSP1 | YSP2 | YSP3
  | CSD1 | ZD | CFM1 | CFM2 | CFM3 | CFP1 | CFP2 | CFP3
  | GM | GP | DEXA | VMD | SGTM | SGTP | SGTD | TGTD | SGL | VS0
  (* scripts *)
  | FMHZ | ENS0 | EPS | SGM | GMA | DKM.

Inductive zkey : Set := MDP | LVAR | KLIM | KLIMX | MDVAR | MDVARX | KDV | KWX | IPOL.
Inductive bkey : Set := WLOS | WSCAT | WS | WL.

Definition nkey_id (k : nkey) : positive :=
  match k with
  | HG0 => 1 | HG1 => 2 | HE0 => 3 | HE1 => 4 | DL0 => 5 | DL1 => 6 | THE0 => 7 | THE1 => 8 | DIST => 9
  | WN => 10 | DH => 11 | ENS => 12 | GME => 13 | ZGR => 14 | ZGI => 15
  | DLS0 => 16 | DLS1 => 17 | DLSA => 18 | DLA => 19 | THA => 20 | DMIN => 21 | XAE => 22 | EMD => 23
  | AED => 24 | WIS => 25 | ASCAT1 => 26 | AK1 => 27 | AK2 => 28 | AEL => 29 | AREF => 30
  | AD => 31 | RR => 32 | ETQ => 33 | H0S => 34 | EMS => 35 | DX => 36 | AES => 37
  | QK => 38 | WD1 => 39 | XD1 => 40 | AFO => 41 | AHT => 42 | XHT => 43
  | CV1 => 44 | CV2 => 45 | YV1 => 46 | YV2 => 47 | YV3 => 48 | CSM1 => 49 | CSM2 => 50 | YSM1 => 51
  | YSM2 => 52 | YSM3 => 53 | CSP1 => 54 | CSP2 => 55 | YSP1 => 56 | YSP2 => 57 | YSP3 => 58
  | CSD1 => 59 | ZD => 60 | CFM1 => 61 | CFM2 => 62 | CFM3 => 63 | CFP1 => 64 | CFP2 => 65 | CFP3 => 66
  | GM => 67 | GP => 68 | DEXA => 69 | VMD => 70 | SGTM => 71 | SGTP => 72 | SGTD => 73 | TGTD => 74
  | SGL => 75 | VS0 => 76
  | FMHZ => 77 | ENS0 => 78 | EPS => 79 | SGM => 80 | GMA => 81 | DKM => 82
  end.
Definition zkey_id (k : zkey) : positive :=
  match k with MDP => 1 | LVAR => 2 | KLIM => 3 | KLIMX => 4 | MDVAR => 5 | MDVARX => 6 | KDV => 7
             | KWX => 8 | IPOL => 9 end.
Definition bkey_id (k : bkey) : positive :=
  match k with WLOS => 1 | WSCAT => 2 | WS => 3 | WL => 4 end.

Definition nkey_eqb (a b : nkey) : bool := Pos.eqb (nkey_id a) (nkey_id b).
Definition zkey_eqb (a b : zkey) : bool := Pos.eqb (zkey_id a) (zkey_id b).
Definition bkey_eqb (a b : bkey) : bool := Pos.eqb (bkey_id a) (bkey_id b).

Section Dict.
Context (A : arith).

Record profile : Type := Profile {
  pf_np : Z;               (* pfl[0] *)
  pf_xi : num A;           (* pfl[1] *)
  pf_z : list (num A)      (* pfl[2:] *)
}.

Record prop : Type := Prop_ {
  pn : nkey -> option (num A);
  pz : zkey -> option Z;
  pb : bkey -> option bool;
  ppfl : option profile
}.

Definition getn (p : prop) (k : nkey) : res (num A) := opt_res KeyError (pn p k).
Definition getz (p : prop) (k : zkey) : res Z := opt_res KeyError (pz p k).
Definition getb (p : prop) (k : bkey) : res bool := opt_res KeyError (pb p k).
Definition getpfl (p : prop) : res profile := opt_res KeyError (ppfl p).

Definition setn (p : prop) (k : nkey) (v : num A) : prop :=
  Prop_ (fun k' => if nkey_eqb k k' then Some v else pn p k') (pz p) (pb p) (ppfl p).
Definition setz (p : prop) (k : zkey) (v : Z) : prop :=
  Prop_ (pn p) (fun k' => if zkey_eqb k k' then Some v else pz p k') (pb p) (ppfl p).
Definition setb (p : prop) (k : bkey) (v : bool) : prop :=
  Prop_ (pn p) (pz p) (fun k' => if bkey_eqb k k' then Some v else pb p k') (ppfl p).
Definition setpfl (p : prop) (v : profile) : prop := Prop_ (pn p) (pz p) (pb p) (Some v).
(** Dropping a key, used only to state non-interference. *)
Definition empty_prop : prop :=
  Prop_ (fun _ => None) (fun _ => None) (fun _ => None) None.

(** [pfl[i]] on the Python list [np, xi, z0, z1, ...]. *)
Definition pfl_list (f : profile) : list (num A) := n_Z (pf_np f) :: pf_xi f :: pf_z f.
Definition pflget (f : profile) (i : Z) : res (num A) := pyget (pfl_list f) i.

End Dict.
Arguments Profile {A}. Arguments pf_np {A}. Arguments pf_xi {A}. Arguments pf_z {A}.
Arguments Prop_ {A}. Arguments pn {A}. Arguments pz {A}. Arguments pb {A}. Arguments ppfl {A}.
Arguments getn {A}. Arguments getz {A}. Arguments getb {A}. Arguments getpfl {A}.
Arguments setn {A}. Arguments setz {A}. Arguments setb {A}. Arguments setpfl {A}.
Arguments pfl_list {A}. Arguments pflget {A}.
