(** C76: pimter.py run as a program over its measurement files.  Exact reals, except where stated. *)
From Coq Require Import String Lra Lia.
From Verif Require Import RInst SpecReader SpecPimter PfFlight PfReader4 PfReader5 PfReader6 Scripts Reader PyFloat Cases Arith.
Open Scope string_scope. Open Scope list_scope. Open Scope R_scope.

(** Twelve files holding columns of numbers from which the losses can be computed (C72 says when): every pair is announced, in order,
    and the program ends normally. *)
Theorem C76_completes : forall disk : text -> option text,
  Forall (fun f => exists th tl z d rows, disk (fst f) = Some th /\ disk (snd f) = Some tl /\ column_file th z /\ column_file tl d /\ run_itmlogic RA z d = Ok rows) pimter_main_files ->
  pimter_program RA disk = (map fst pimter_main_files, None).
Proof. exact program_all. Qed.
Print Assumptions C76_completes.
(** That is all it shows: two such sets of files give the same outcome, whatever they hold. *)
Theorem C76_results_unused : forall disk disk' : text -> option text,
  Forall (pair_ok disk) pimter_main_files -> Forall (pair_ok disk') pimter_main_files -> pimter_program RA disk = pimter_program RA disk'.
Proof. exact program_blind. Qed.
Print Assumptions C76_results_unused.
(** The first pair that cannot be computed ends the program with its error, after the announcements of the pairs before it; later pairs
    are not looked at.  A file fails if it is not there or if a line does not start with a number. *)
Theorem C76_first_failure : forall (disk : text -> option text) before f after s, pimter_main_files = before ++ f :: after -> Forall (pair_ok disk) before ->
  (file_fails (disk (fst f)) s \/
   exists th z, disk (fst f) = Some th /\ column_file th z /\
     (file_fails (disk (snd f)) s \/ exists tl d e, disk (snd f) = Some tl /\ column_file tl d /\ run_itmlogic RA z d = Err e /\ s = Raised e)) ->
  pimter_program RA disk = (map fst before, Some s).
Proof. exact program_first. Qed.
Print Assumptions C76_first_failure.

(** run_itmlogic takes its heights from the module's global terrain_height_no_tree, not from its argument: any arithmetic, whatever is passed. *)
Theorem C76_argument_ignored : forall (A : arith) (global : option (list (num A))) (heights heights' distance : list (num A)),
  run_itmlogic_call A global heights distance = run_itmlogic_call A global heights' distance.
Proof. exact (fun _ _ _ _ _ => eq_refl). Qed.
Print Assumptions C76_argument_ignored.
(** Imported from another module the name is never assigned: every call with two distances or more is a NameError. *)
Theorem C76_imported : forall heights distance : list R, (2 <= length distance)%nat -> run_itmlogic_call RA None heights distance = inr NameError.
Proof. exact unknown_name. Qed.
Print Assumptions C76_imported.

(** Fewer heights than distances: IndexError. *)
Theorem C76_missing_heights : forall z dist : list R, (2 <= length dist)%nat -> (length z < length dist)%nat -> run_itmlogic RA z dist = Err IndexError.
Proof. exact missing. Qed.
Print Assumptions C76_missing_heights.
(** More heights than distances: the surplus is left out without notice. *)
Theorem C76_surplus_heights : forall z extra dist : list R, length z = length dist -> (2 <= length dist)%nat -> nth 0 dist 0 < nth 1 dist 0 ->
  run_itmlogic RA (z ++ extra) dist = run_itmlogic RA z dist.
Proof. exact surplus. Qed.
Print Assumptions C76_surplus_heights.

(** The second pair of files is not there. *)
Example C76_case_absent : forall disk : text -> option text, disk (lit "PIMTER_2019_Rx_Tx0_dem_height.csv") = None -> pair_ok disk (lit "PIMTER_Tx_Rx1_dem_height.csv", lit "PIMTER_Tx_Rx1_dem_length.csv") ->
  pimter_program RA disk = ([lit "PIMTER_Tx_Rx1_dem_height.csv"], Some FileNotFoundError).
Proof. intros disk N P. refine (C76_first_failure disk [_] _ _ _ eq_refl _ _); [constructor; [exact P|constructor]|]. left. left. split; [exact N|reflexivity]. Qed.

(** Twelve files with three heights of 120 m and three distances 1 km apart: the program announces all six pairs. *)
Definition level_heights : text := (lit "120" ++ [10] ++ lit "120.0" ++ [10] ++ lit "1.2e2" ++ [10])%Z.
Definition level_lengths : text := (lit "0" ++ [10] ++ lit "1000" ++ [10] ++ lit "2000")%Z.
Example C76_case_level : forall disk : text -> option text,
  (forall f, In f pimter_main_files -> disk (fst f) = Some level_heights /\ disk (snd f) = Some level_lengths) ->
  pimter_program RA disk = (map fst pimter_main_files, None).
Proof.
  assert (DG : forall l t, (forall d, In d l -> (0 <= d <= 9)%Z) -> l <> [] -> t = digits_text l -> denotes t (IZR (whole_value 0 l))).
  { intros l t D N ->. exists [], (Numeral NoSign l None None), []. split; [constructor|]. split; [constructor|]. split.
    - split; [apply Forall_forall; exact D|]. split; [constructor|]. split; [cbn; rewrite app_nil_r; exact N | exact Logic.I].
    - split; [unfold numeral_text; cbn; rewrite !app_nil_r; reflexivity|]. unfold numeral_value. cbn. lra. }
  assert (H : column_file level_heights [120; 120; 120]).
  { exists [10%Z], [lit "120"; lit "120.0"; lit "1.2e2"], []. split; [left; reflexivity|]. split; [reflexivity|]. split; [repeat constructor; cbn; try lia; intuition discriminate|].
    constructor; [exists (lit "120"); split; [exists []; reflexivity | apply (DG [1; 2; 0]%Z); [cbn; intuition lia | discriminate | reflexivity]]|].
    constructor; [exists (lit "120.0"); split; [exists []; reflexivity|]|constructor; [exists (lit "1.2e2"); split; [exists []; reflexivity|]|constructor]].
    - exists [], (Numeral NoSign [1; 2; 0]%Z (Some [0%Z]) None), []. split; [constructor|]. split; [constructor|]. split; [split; [repeat constructor; lia|split; [repeat constructor; lia|split; [discriminate | exact Logic.I]]]|].
      split; [reflexivity|]. unfold numeral_value. cbn. lra.
    - exists [], (Numeral NoSign [1%Z] (Some [2%Z]) (Some (101%Z, NoSign, [2%Z]))), []. split; [constructor|]. split; [constructor|]. split.
      { split; [repeat constructor; lia|]. split; [repeat constructor; lia|]. split; [discriminate|]. split; [left; reflexivity|]. split; [repeat constructor; lia | discriminate]. }
      split; [reflexivity|]. unfold numeral_value. cbn. change (Pos.to_nat 2) with 2%nat. cbn. lra. }
  assert (L : column_file level_lengths [0; 1000; 2000]).
  { exists [10%Z], [lit "0"; lit "1000"], (lit "2000"). split; [left; reflexivity|]. split; [reflexivity|]. split; [repeat constructor; cbn; try lia; intuition discriminate|].
    constructor; [exists (lit "0"); split; [exists []; reflexivity | apply (DG [0]%Z); [cbn; intuition lia | discriminate | reflexivity]]|].
    constructor; [exists (lit "1000"); split; [exists []; reflexivity | apply (DG [1; 0; 0; 0]%Z); [cbn; intuition lia | discriminate | reflexivity]]|].
    constructor; [exists (lit "2000"); split; [exists []; reflexivity | apply (DG [2; 0; 0; 0]%Z); [cbn; intuition lia | discriminate | reflexivity]]|constructor]. }
  destruct (level_flight [0; 1000; 2000] [120; 120; 120] 120) as (rows & E & _); [reflexivity | cbn; lia | cbn; lra | cbn; intuition | |].
  { unfold path_length, walked_path, intervals. cbn. replace (Pos.to_nat 2) with 2%nat by reflexivity. cbn [INR]. lra. }
  intros disk Hd. apply C76_completes. apply Forall_forall. intros f I. destruct (Hd f I) as [A B]. exists level_heights, level_lengths, [120; 120; 120], [0; 1000; 2000], rows. auto.
Qed.
