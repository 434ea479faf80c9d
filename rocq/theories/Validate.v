(** Running the binary64 instance of the model against the numbers expected by the repository's own tests
    (tests/*.py).  These are checks that the transcription is faithful, not theorems about the code. *)
From Verif Require Import Scripts TestLibm.

Definition L (n : Z) (d : positive) : num TA := @n_lit TA n d.
(** [near k r n]: the result is Ok and, scaled by 10^k, within 1 of n. *)
Definition near (k : Z) (r : res (num TA)) (n : Z) : bool :=
  match r with Ok x => (Z.abs (dec k x - n) <=? 1)%Z | Err _ => false end.
(** [rounds k r n]: round(result, k) * 10^k = n. *)
Definition rounds (k : Z) (r : res (num TA)) (n : Z) : bool :=
  match r with Ok x => (dec k x =? n)%Z | Err _ => false end.
Definition fst_of {A B} (r : res (A * B)) : res A := let! x := r in Ok (fst x).
Definition snd_of {A B} (r : res (A * B)) : res B := let! x := r in Ok (snd x).

(** tests/test_aknfe.py *)
Example v_aknfe :
  rounds 2 (aknfe TA (PI (-1))) 605 && rounds 2 (aknfe TA (PI 2)) 1636 && rounds 2 (aknfe TA (PI 3)) 1799
  && rounds 2 (aknfe TA (PI 5)) 2004 && rounds 2 (aknfe TA (PI 6)) 2073 = true.
Proof. vm_compute. reflexivity. Qed.

(** tests/test_fht.py *)
Example v_fht :
  near 15 (fht TA (L 3728075813962142 10000000000000) (L 15012964882592428 10000000000000000000))
       (-11915375775262177)
  && rounds 2 (fht TA (PI 150) (PI 20)) 1105 && rounds 2 (fht TA (PI 150) (L 1 1000000)) (-2996) = true.
Proof. vm_compute. reflexivity. Qed.

(** tests/test_h0f.py *)
Example v_h0f :
  near 14 (h0f TA (L 4727387221558643 10000000000000000) (L 25221451983881447 10000000000000000))
       3428154717133048
  && rounds 2 (h0f TA (PI 2) (PI (-1))) 933 && rounds 2 (h0f TA (PI 2) (PI 6)) 1853 = true.
Proof. vm_compute. reflexivity. Qed.

(** tests/test_ahd.py, tests/test_curv.py *)
Example v_ahd : rounds 4 (ahd TA (L 56438 10)) 977575 = true.
Proof. vm_compute. reflexivity. Qed.
Example v_curv :
  near 17 (curv TA (L (-62) 100) (L 919 100) (L 228900 1) (L 205200 1) (L 143600 1)
                (L 5909760805391026 100000000000)) 24344472623622865 = true.
Proof. vm_compute. reflexivity. Qed.

(** tests/test_qerf.py, tests/test_qerfi.py, tests/test_qtile.py *)
Example v_qerf :
  rounds 4 (qerf TA (PI (-1))) 8413 && rounds 4 (qerf TA (PI 1)) 1587 && rounds 4 (qerf TA (PI 10)) 0 = true.
Proof. vm_compute. reflexivity. Qed.
Example v_qerfi :
  match qerfi TA [L 1 100; L 1 10; L 5 10; L 9 10; L 99 100] with
  | Ok l => map (dec 4) l | Err _ => [] end = [23268; 12817; 0; -12817; -23268].
Proof. vm_compute. reflexivity. Qed.
Example v_qtile :
  map (qtile TA (map PI [0; 20; 40; 60; 80; 100; 120; 140; 160; 180; 200])) [5; 8; 3]
  = [Ok (PI 100); Ok (PI 40); Ok (PI 140)].
Proof. vm_compute. reflexivity. Qed.

(** tests/test_zlsq1.py *)
Definition setup_z : profile TA := @Profile TA 144 (PI 1)
  [ L (12290750642673521) 100000000000000; L (15053842759211653) 100000000000000; L (11670283204798628) 100000000000000; L (8721328406169664) 100000000000000; L (693745501285347) 10000000000000;
   L (5718863110539845) 100000000000000; L (4634651670951156) 100000000000000; L (35916416023993136) 1000000000000000; L (3389832904884318) 100000000000000; L (3312580334190231) 100000000000000;
   L (3235327763496144) 100000000000000; L (3158075192802056) 100000000000000; L (30808226221079686) 1000000000000000; L (30035700514138814) 1000000000000000; L (4426317480719794) 100000000000000;
   L (43490649100257066) 1000000000000000; L (4271812339331619) 100000000000000; L (41945597686375315) 1000000000000000; L (4517307197943444) 100000000000000; L (49787285775492705) 1000000000000000;
   L (5419549271636674) 100000000000000; L (5839769280205655) 100000000000000; L (62393886032562115) 1000000000000000; L (6618407240788345) 100000000000000; L (6976825192802056) 100000000000000;
   L (8114642459297342) 100000000000000; L (1036500214224507) 10000000000000; L (9494237789203083) 100000000000000; L (794240274207369) 10000000000000; L (662423414738646) 10000000000000;
   L (698055269922879) 10000000000000; L (7248652313624677) 100000000000000; L (7483466152527848) 100000000000000; L (10889383033419021) 100000000000000; L (9222954155955439) 100000000000000;
   L (12808026992287915) 100000000000000; L (1657098714652956) 10000000000000; L (19951301199657237) 100000000000000; L (14632762639245925) 100000000000000; L (12251343187660666) 100000000000000;
   L (12014435304198798) 100000000000000; L (11777527420736929) 100000000000000; L (11540619537275062) 100000000000000; L (11303711653813193) 100000000000000; L (11866803770351325) 100000000000000;
   L (1297162596401028) 10000000000000; L (15095811482433587) 100000000000000; L (22883855826906594) 100000000000000; L (18718092544987138) 100000000000000; L (20231042202227928) 100000000000000;
   L (23319757926306764) 100000000000000; L (2790752699228791) 10000000000000; L (28815240788346176) 100000000000000; L (2776156726649528) 10000000000000; L (3357534061696657) 10000000000000;
   L (3463955826906597) 10000000000000; L (2621123736075406) 10000000000000; L (2031132840616966) 10000000000000; L (1706210068551842) 10000000000000; L (16663137317909164) 100000000000000;
   L (17123516709511563) 100000000000000; L (17752995072836327) 100000000000000; L (18199452013710362) 100000000000000; L (1856197814910025) 10000000000000; L (18693603256212504) 100000000000000;
   L (19761898243359033) 100000000000000; L (20545987146529555) 100000000000000; L (1861371615252784) 10000000000000; L (16609221936589537) 100000000000000; L (14498958868894596) 100000000000000;
   L (13054119965724072) 100000000000000; L (15296267994858607) 100000000000000; L (3171243444730076) 10000000000000; L (3116136610968294) 10000000000000; L (33010297772065115) 100000000000000;
   L (3503035796915166) 10000000000000; L (36223705227077966) 100000000000000; L (3639339567266494) 10000000000000; L (3623937660668379) 10000000000000; L (3666475685518422) 10000000000000;
   L (3743506598114823) 10000000000000; L (37803899742930577) 100000000000000; L (3722117909168807) 10000000000000; L (2743835304198799) 10000000000000; L (3109961439588688) 10000000000000;
   L (24831315981148228) 100000000000000; L (2072465124250213) 10000000000000; L (21540404241645234) 100000000000000; L (25383539845758344) 100000000000000; L (314589974293059) 1000000000000;
   L (3095857069408739) 10000000000000; L (47097875107112236) 100000000000000; L (49286910025706925) 100000000000000; L (39221681233933145) 100000000000000; L (37535042844901443) 100000000000000;
   L (38075581191088247) 100000000000000; L (43970007712082247) 100000000000000; L (4809601328191943) 10000000000000; L (480326388174807) 1000000000000; L (4789015745501283) 10000000000000;
   L (48556368466152503) 100000000000000; L (49322446872322166) 100000000000000; L (46816422879177355) 100000000000000; L (37450735218508976) 100000000000000; L (35199005998286185) 100000000000000;
   L (37216179948586097) 100000000000000; L (38931162810625517) 100000000000000; L (4245357519280203) 10000000000000; L (3337240102827761) 10000000000000; L (26308161953727483) 100000000000000;
   L (2328526520994) 10000000000; L (3102076928020564) 10000000000000; L (29598587832047974) 100000000000000; L (2820730741216794) 10000000000000; L (2684692802056554) 10000000000000;
   L (27717449657240775) 100000000000000; L (25386346186803758) 100000000000000; L (25280436375321324) 100000000000000; L (26168590831191074) 100000000000000; L (2694062339331618) 10000000000000;
   L (26661154241645227) 100000000000000; L (26110085904027403) 100000000000000; L (24759017566409582) 100000000000000; L (23073072622107952) 100000000000000; L (21599760068551828) 100000000000000;
   L (204013680377035) 1000000000000; L (22662446015424152) 100000000000000; L (25777438946015405) 100000000000000; L (25372131962296467) 100000000000000; L (24743811053984558) 100000000000000;
   L (36315490145672646) 100000000000000; L (38687169237360735) 100000000000000; L (393693624678663) 1000000000000; L (386637889888603) 1000000000000; L (37958215509854307) 100000000000000;
   L (37252642030848307) 100000000000000; L (36547068551842307) 100000000000000; L (3584149507283631) 10000000000000; L (3513592159383031) 10000000000000; L (3503034811482431) 10000000000000;
   L (3526327335047127) 10000000000000; L (35306313624678637) 100000000000000; L (3527228663239072) 10000000000000; L (3500735861182517) 10000000000000; L (3568596401028275) 10000000000000;
   L (19703137960582666) 100000000000000].
Example v_zlsq1 :
  let r := zlsq1 TA setup_z (PI 0) (PI 144) in
  rounds 4 (fst_of r) 573924 && rounds 4 (snd_of r) 4081239 = true.
Proof. vm_compute. reflexivity. Qed.

(** tests/test_dlthx.py, tests/test_hzns.py: the Crystal Palace - Mursley profile *)
Definition crystal_palace : list (num TA) := map PI
  [96; 84; 65; 46; 46; 46; 61; 41; 33; 27; 23; 19; 15; 15; 15; 15; 15; 15; 15; 15; 15; 15; 15; 15; 17; 19; 21; 23; 25; 27; 29; 35; 46; 41; 35; 30; 33; 35; 37; 40; 35; 30; 51; 62; 76; 46; 46; 46; 46; 46; 46; 50; 56; 67; 106; 83; 95; 112; 137; 137; 76; 103; 122; 122; 83; 71; 61; 64; 67; 71; 74; 77; 79; 86; 91; 83; 76; 68; 63; 76; 107; 107; 107; 119; 127; 133; 135; 137; 142; 148; 152; 152; 107; 137; 104; 91; 99; 120; 152; 152; 137; 168; 168; 122; 137; 137; 170; 183; 183; 187; 194; 201; 192; 152; 152; 166; 177; 198; 156; 127; 116; 107; 104; 101; 98; 95; 103; 91; 97; 102; 107; 107; 107; 103; 98; 94; 91; 105; 122; 122; 122; 122; 122; 137; 137; 137; 137; 137; 137; 137; 137; 140; 144; 147; 150; 152; 159].
Definition setup_pfl1 : profile TA := @Profile TA 156 (L 498717948717949 1000000000000) crystal_palace.
Example v_dlthx : rounds 4 (dlthx TA setup_pfl1 (L 21585 10) (L 776725 10)) 892126 = true.
Proof. vm_compute. reflexivity. Qed.
Example v_hzns :
  match hzns TA (@Profile TA 156 (L 49871794871794873 100000000000000) crystal_palace)
             (PI 77800) (L 1439 10) (L 85 10) (L 11480007964369815 100000000000000000000000) with
  | Ok (the0, the1, dl0, dl1) =>
      (dec 4 the0 =? -39) && (dec 4 the1 =? 5) && (dec 4 dl0 =? 553576923) && (dec 4 dl1 =? 194500000)
  | Err _ => false
  end%Z = true.
Proof. vm_compute. reflexivity. Qed.

(** tests/test_qlrps.py *)
Example v_qlrps :
  match qlrps TA (PI 1) (PI 1) (PI 1) 1 (PI 1) (PI 1) with
  | Ok (wn, gme, ens, z) =>
      near 8 (Ok wn) 2096436 && near 12 (Ok gme) 149634 && near 8 (Ok ens) 99989429
      && near 8 (Ok (fst z)) 527592 && near 8 (Ok (snd z)) (-527533)
  | Err _ => false
  end%Z = true.
Proof. vm_compute. reflexivity. Qed.

(** tests/test_p2p.py: the complete point-to-point run, all digits *)
Definition p2p_in : prop TA :=
  setz (setn (setn (setn (setn (empty_prop TA) FMHZ (L 415 10)) DKM (L 778 10)) HG0 (L 1439 10))
             HG1 (L 85 10)) IPOL 0.
Definition p2p_loss (qr qc : Z) (rows : list (num TA * num TA * num TA * num TA)) : list (num TA) :=
  map snd (filter (fun r => match fst r with (_, PI a, PI b) => (a =? qr)%Z && (b =? qc)%Z | _ => false end)
                  rows).
Example v_p2p :
  match itmlogic_p2p TA crystal_palace p2p_in with
  | Ok o =>
      let ok qr qc n :=
        match p2p_loss qr qc (out_rows _ o) with [x] => near 14 (Ok x) n | _ => false end in
      ok 1 50 12859690393106730 && ok 1 90 13764279211442656 && ok 1 10 11955101574770802
      && ok 99 50 13974127375512774 && ok 99 90 14843891653133920 && ok 99 10 13104363097891627
      && (length (out_rows _ o) =? 15)%nat
  | Err _ => false
  end%Z = true.
Proof. vm_compute. reflexivity. Qed.

(** tests/test_area.py: the complete area run, all digits *)
Definition area_in : prop TA :=
  setz (setn (setn (setn (setn (empty_prop TA) FMHZ (PI 20)) DH (PI 102)) HG0 (L 33 10)) HG1 (L 13 10))
       IPOL 1.
Definition area_loss (d qc : Z) (rows : list (num TA * num TA * num TA)) : list (num TA) :=
  map snd (filter (fun r => match fst r with (PI a, PI b) => (a =? d)%Z && (b =? qc)%Z | _ => false end)
                  rows).
Example v_area :
  match itmlogic_area TA area_in with
  | Ok o =>
      let ok d qc n := match area_loss d qc o with [x] => near 14 (Ok x) n | _ => false end in
      ok 10 50 11169200844812511 && ok 10 90 12159437954264777 && ok 10 10 10178963735360244
      && ok 500 50 21527421197676375 && ok 500 90 22171014370503855 && ok 500 10 20883828024848896
      && (length o =? 66)%nat
  | Err _ => false
  end%Z = true.
Proof. vm_compute. reflexivity. Qed.

(** There is no test of pimter.py; the complete run of 121 heights over a short profile is evaluated: = true. *)
Definition pimter_terrain : list (num TA) := map PI [100; 101; 103; 120; 104; 102; 100; 98; 99; 97; 100]%Z.
Definition pimter_distance : list (num TA) := map PI [0; 1000; 2000; 3000; 4000; 5000; 6000; 7000; 8000; 9000; 10000]%Z.
Eval vm_compute in (match run_itmlogic TA pimter_terrain pimter_distance with Ok rows => (length rows =? 121)%nat | Err _ => false end).
