(** The datasets of /repo/test/resource used by the validation runs, transcribed.
    Directory prefixes of paths are shortened to ref/ and dis/.  Used only by
    Validate*.v. *)
From Coq Require Import String Ascii.
From Coq Require Import List ZArith Floats.
From Verif Require Import PyBase Num NumFloat Dataset.
Import ListNotations.
Local Open Scope string_scope.
Local Open Scope Z_scope.

(** Votes of one video, one digit per subject. *)
Fixpoint votes (s : string) : list (pyv float) :=
  match s with
  | EmptyString => []
  | String c s' => PNum (nofZ (Z.of_nat (nat_of_ascii c) - 48)) :: votes s'
  end.
Definition vote (z : Z) : pyv float := PNum (nofZ z).
(** Content id, asset id, path, votes. *)
Definition lv (c a : Z) (p v : string) : dvideo float string := DVideo c a p (Some (OSeq true (votes v))) None None [].
Definition dv (c a : Z) (p : string) (d : list (string * pyv float)) : dvideo float string := DVideo c a p (Some (ODict d)) None None [].
Definition rv (c : Z) (n p : string) : rvideo := RVideo c p [("content_name", n)].

(** test/resource/NFLX_dataset_public_raw.py *)
Definition nflx : dataset float string := Dataset
  [rv 0 "BigBuckBunny" "ref/BigBuckBunny_25fps.yuv";
   rv 1 "BirdsInCage" "ref/BirdsInCage_30fps.yuv";
   rv 2 "CrowdRun" "ref/CrowdRun_25fps.yuv";
   rv 3 "ElFuente1" "ref/ElFuente1_30fps.yuv";
   rv 4 "ElFuente2" "ref/ElFuente2_30fps.yuv";
   rv 5 "FoxBird" "ref/FoxBird_25fps.yuv";
   rv 6 "OldTownCross" "ref/OldTownCross_25fps.yuv";
   rv 7 "Seeking" "ref/Seeking_25fps.yuv";
   rv 8 "Tennis" "ref/Tennis_24fps.yuv"]
  [lv 0 0 "ref/BigBuckBunny_25fps.yuv" "54555535555555555555555555";
   lv 1 1 "ref/BirdsInCage_30fps.yuv" "45555555454555555555555555";
   lv 2 2 "ref/CrowdRun_25fps.yuv" "55555545344555555445554555";
   lv 3 3 "ref/ElFuente1_30fps.yuv" "45555554454555455555555454";
   lv 4 4 "ref/ElFuente2_30fps.yuv" "55555555555555555445554555";
   lv 5 5 "ref/FoxBird_25fps.yuv" "45555535555555555555555555";
   lv 6 6 "ref/OldTownCross_25fps.yuv" "35454454454555355435554555";
   lv 7 7 "ref/Seeking_25fps.yuv" "55555545553555555455445455";
   lv 8 8 "ref/Tennis_24fps.yuv" "55455455355555555445554555";
   lv 0 9 "dis/BigBuckBunny_20_288_375.yuv" "11121111131221112112111112";
   lv 0 10 "dis/BigBuckBunny_30_384_550.yuv" "21233122232342122122311232";
   lv 0 11 "dis/BigBuckBunny_40_384_750.yuv" "22232222243335222422222133";
   lv 0 12 "dis/BigBuckBunny_50_480_1050.yuv" "33444333353443223333323243";
   lv 0 13 "dis/BigBuckBunny_55_480_1750.yuv" "43544444454454334334334245";
   lv 0 14 "dis/BigBuckBunny_75_720_3050.yuv" "53555555555554454553544555";
   lv 0 15 "dis/BigBuckBunny_80_720_4250.yuv" "54555545555555454554445344";
   lv 0 16 "dis/BigBuckBunny_85_1080_3800.yuv" "54355545555555455555544355";
   lv 0 17 "dis/BigBuckBunny_90_1080_4300.yuv" "55455555555555555555545455";
   lv 0 18 "dis/BigBuckBunny_95_1080_5800.yuv" "55555355554555555545555455";
   lv 1 19 "dis/BirdsInCage_40_288_375.yuv" "21332223133235112222121132";
   lv 1 20 "dis/BirdsInCage_50_288_550.yuv" "11332122132242312213221122";
   lv 1 21 "dis/BirdsInCage_60_384_550.yuv" "22431323342343312223332234";
   lv 1 22 "dis/BirdsInCage_65_384_750.yuv" "22433233353342323323232242";
   lv 1 23 "dis/BirdsInCage_80_480_750.yuv" "33444443353444434334334343";
   lv 1 24 "dis/BirdsInCage_85_720_1050.yuv" "44554544455445555344554454";
   lv 1 25 "dis/BirdsInCage_90_1080_1800.yuv" "55555555455555545555555554";
   lv 1 26 "dis/BirdsInCage_95_1080_3000.yuv" "45555555455545555555455555";
   lv 2 27 "dis/CrowdRun_03_288_375.yuv" "11111111111111111111111111";
   lv 2 28 "dis/CrowdRun_40_480_2350.yuv" "22222123131312222222122132";
   lv 2 29 "dis/CrowdRun_50_1080_4300.yuv" "23353313143434333212233233";
   lv 2 30 "dis/CrowdRun_65_1080_5800.yuv" "33434334344443333223434243";
   lv 2 31 "dis/CrowdRun_75_1080_7500.yuv" "33554535454444454324443453";
   lv 2 32 "dis/CrowdRun_80_1080_10000.yuv" "55554355454545454443444454";
   lv 2 33 "dis/CrowdRun_90_1080_15000.yuv" "55445445454444555455545454";
   lv 3 34 "dis/ElFuente1_10_288_375.yuv" "11111131122211111111111111";
   lv 3 35 "dis/ElFuente1_25_384_750.yuv" "11223111123332211111211112";
   lv 3 36 "dis/ElFuente1_50_480_1750.yuv" "33454434244343233233232243";
   lv 3 37 "dis/ElFuente1_60_720_2350.yuv" "23444434344443433333433344";
   lv 3 38 "dis/ElFuente1_70_1080_4300.yuv" "44555444455543554343434354";
   lv 3 39 "dis/ElFuente1_85_1080_5800.yuv" "44545554455455555454544555";
   lv 3 40 "dis/ElFuente1_90_1080_7500.yuv" "55555545454555455544554455";
   lv 4 41 "dis/ElFuente2_05_288_375.yuv" "11312111142111111111111121";
   lv 4 42 "dis/ElFuente2_30_480_1750.yuv" "12324232253443233232322123";
   lv 4 43 "dis/ElFuente2_50_720_3050.yuv" "21235423443443243222422234";
   lv 4 44 "dis/ElFuente2_60_1080_4300.yuv" "33525114443443324422433244";
   lv 4 45 "dis/ElFuente2_65_720_4250.yuv" "43425434453442345243543254";
   lv 4 46 "dis/ElFuente2_70_1080_5800.yuv" "52335445554455544334434254";
   lv 4 47 "dis/ElFuente2_80_1080_10000.yuv" "44455524555554545544434455";
   lv 4 48 "dis/ElFuente2_85_1080_15000.yuv" "55545545554543555554554455";
   lv 4 49 "dis/ElFuente2_90_1080_20000.yuv" "55445545554555555544555555";
   lv 5 50 "dis/FoxBird_20_288_375.yuv" "12321232142231232221221122";
   lv 5 51 "dis/FoxBird_40_384_750.yuv" "32524332444453342333323333";
   lv 5 52 "dis/FoxBird_55_480_750.yuv" "43443434443343333333332343";
   lv 5 53 "dis/FoxBird_65_480_1750.yuv" "44444444454453454443443445";
   lv 5 54 "dis/FoxBird_80_1080_2300.yuv" "55554555555554554435544554";
   lv 5 55 "dis/FoxBird_95_1080_5800.yuv" "55555535555554555555555555";
   lv 6 56 "dis/OldTownCross_20_288_375.yuv" "11112111121111111111111121";
   lv 6 57 "dis/OldTownCross_45_384_750.yuv" "12322142131221212112212232";
   lv 6 58 "dis/OldTownCross_55_480_750.yuv" "32343233143322322221322232";
   lv 6 59 "dis/OldTownCross_60_480_1750.yuv" "33234454352343222233333243";
   lv 6 60 "dis/OldTownCross_80_720_2350.yuv" "54534455354553554434444454";
   lv 6 61 "dis/OldTownCross_85_720_2950.yuv" "45355555454554354444544553";
   lv 6 62 "dis/OldTownCross_90_1080_4300.yuv" "55445545554554555455555555";
   lv 7 63 "dis/Seeking_10_288_375.yuv" "11111111121111111111111111";
   lv 7 64 "dis/Seeking_30_480_1050.yuv" "22413223122343222111222122";
   lv 7 65 "dis/Seeking_45_480_1750.yuv" "22324134243433332223223133";
   lv 7 66 "dis/Seeking_50_720_2350.yuv" "33343534353334334224332234";
   lv 7 67 "dis/Seeking_60_720_3050.yuv" "44335333354453533334434354";
   lv 7 68 "dis/Seeking_65_1080_4300.yuv" "44444235453444434324434354";
   lv 7 69 "dis/Seeking_75_1080_5800.yuv" "45453545553544545344353445";
   lv 7 70 "dis/Seeking_85_1080_7500.yuv" "35345544454555555345554455";
   lv 7 71 "dis/Seeking_90_1080_15000.yuv" "55555135354454545435444555";
   lv 7 72 "dis/Seeking_95_1080_20000.yuv" "55555544454543455445554555";
   lv 8 73 "dis/Tennis_20_288_375.yuv" "21221113131121112222121131";
   lv 8 74 "dis/Tennis_40_384_750.yuv" "12223253343343322223222223";
   lv 8 75 "dis/Tennis_60_480_1050.yuv" "32443324344444322424323353";
   lv 8 76 "dis/Tennis_70_480_1750.yuv" "33533434143453343333233443";
   lv 8 77 "dis/Tennis_80_720_3050.yuv" "35535555255453445435434455";
   lv 8 78 "dis/Tennis_90_1080_4300.yuv" "55435545455453545555545454"]
  (Some "NFLX_public") (Some (Some (nofZ 5))) [].

(** test/resource/NFLX_dataset_public_raw_last4outliers.py *)
Definition nflx_outliers : dataset float string := Dataset
  [rv 0 "BigBuckBunny" "ref/BigBuckBunny_25fps.yuv";
   rv 1 "BirdsInCage" "ref/BirdsInCage_30fps.yuv";
   rv 2 "CrowdRun" "ref/CrowdRun_25fps.yuv";
   rv 3 "ElFuente1" "ref/ElFuente1_30fps.yuv";
   rv 4 "ElFuente2" "ref/ElFuente2_30fps.yuv";
   rv 5 "FoxBird" "ref/FoxBird_25fps.yuv";
   rv 6 "OldTownCross" "ref/OldTownCross_25fps.yuv";
   rv 7 "Seeking" "ref/Seeking_25fps.yuv";
   rv 8 "Tennis" "ref/Tennis_24fps.yuv"]
  [lv 0 9 "dis/BigBuckBunny_20_288_375.yuv" "111211111312211121121111124252";
   lv 0 10 "dis/BigBuckBunny_30_384_550.yuv" "212331222323421221223112324211";
   lv 0 11 "dis/BigBuckBunny_40_384_750.yuv" "222322222433352224222221335514";
   lv 0 12 "dis/BigBuckBunny_50_480_1050.yuv" "334443333534432233333232434332";
   lv 0 13 "dis/BigBuckBunny_55_480_1750.yuv" "435444444544543343343342455451";
   lv 0 14 "dis/BigBuckBunny_75_720_3050.yuv" "535555555555544545535445553544";
   lv 0 15 "dis/BigBuckBunny_80_720_4250.yuv" "545555455555554545544453442553";
   lv 0 16 "dis/BigBuckBunny_85_1080_3800.yuv" "543555455555554555555443554545";
   lv 0 17 "dis/BigBuckBunny_90_1080_4300.yuv" "554555555555555555555454555255";
   lv 0 18 "dis/BigBuckBunny_95_1080_5800.yuv" "555553555545555555455554555252";
   lv 0 0 "ref/BigBuckBunny_25fps.yuv" "545555355555555555555555554324";
   lv 1 19 "dis/BirdsInCage_40_288_375.yuv" "213322231332351122221211322343";
   lv 1 20 "dis/BirdsInCage_50_288_550.yuv" "113321221322423122132211225454";
   lv 1 21 "dis/BirdsInCage_60_384_550.yuv" "224313233423433122233322344452";
   lv 1 22 "dis/BirdsInCage_65_384_750.yuv" "224332333533423233232322424523";
   lv 1 23 "dis/BirdsInCage_80_480_750.yuv" "334444433534444343343343434125";
   lv 1 24 "dis/BirdsInCage_85_720_1050.yuv" "445545444554455553445544544445";
   lv 1 25 "dis/BirdsInCage_90_1080_1800.yuv" "555555554555555455555555541554";
   lv 1 26 "dis/BirdsInCage_95_1080_3000.yuv" "455555554555455555554555554554";
   lv 1 1 "ref/BirdsInCage_30fps.yuv" "455555554545555555555555553515";
   lv 2 27 "dis/CrowdRun_03_288_375.yuv" "111111111111111111111111115245";
   lv 2 28 "dis/CrowdRun_40_480_2350.yuv" "222221231313122222221221324345";
   lv 2 29 "dis/CrowdRun_50_1080_4300.yuv" "233533131434343332122332335542";
   lv 2 30 "dis/CrowdRun_65_1080_5800.yuv" "334343343444433332234342435423";
   lv 2 31 "dis/CrowdRun_75_1080_7500.yuv" "335545354544444543244434534324";
   lv 2 32 "dis/CrowdRun_80_1080_10000.yuv" "555543554545454544434444542311";
   lv 2 33 "dis/CrowdRun_90_1080_15000.yuv" "554454454544445554555454545342";
   lv 2 2 "ref/CrowdRun_25fps.yuv" "555555453445555554455545555551";
   lv 3 34 "dis/ElFuente1_10_288_375.yuv" "111111311222111111111111112214";
   lv 3 35 "dis/ElFuente1_25_384_750.yuv" "112231111233322111112111124233";
   lv 3 36 "dis/ElFuente1_50_480_1750.yuv" "334544342443432332332322433355";
   lv 3 37 "dis/ElFuente1_60_720_2350.yuv" "234444343444434333334333444533";
   lv 3 38 "dis/ElFuente1_70_1080_4300.yuv" "445554444555435543434343544514";
   lv 3 39 "dis/ElFuente1_85_1080_5800.yuv" "445455544554555554545445552334";
   lv 3 40 "dis/ElFuente1_90_1080_7500.yuv" "555555454545554555445544554353";
   lv 3 3 "ref/ElFuente1_30fps.yuv" "455555544545554555555554543345";
   lv 4 41 "dis/ElFuente2_05_288_375.yuv" "113121111421111111111111215523";
   lv 4 42 "dis/ElFuente2_30_480_1750.yuv" "123242322534432332323221234454";
   lv 4 43 "dis/ElFuente2_50_720_3050.yuv" "212354234434432432224222345323";
   lv 4 44 "dis/ElFuente2_60_1080_4300.yuv" "335251144434433244224332445445";
   lv 4 45 "dis/ElFuente2_65_720_4250.yuv" "434254344534423452435432542544";
   lv 4 46 "dis/ElFuente2_70_1080_5800.yuv" "523354455544555443344342545522";
   lv 4 47 "dis/ElFuente2_80_1080_10000.yuv" "444555245555545455444344554445";
   lv 4 48 "dis/ElFuente2_85_1080_15000.yuv" "555455455545435555545544554514";
   lv 4 49 "dis/ElFuente2_90_1080_20000.yuv" "554455455545555555445555551443";
   lv 4 4 "ref/ElFuente2_30fps.yuv" "555555555555555554455545553342";
   lv 5 50 "dis/FoxBird_20_288_375.yuv" "123212321422312322212211223145";
   lv 5 51 "dis/FoxBird_40_384_750.yuv" "325243324444533423333233333414";
   lv 5 52 "dis/FoxBird_55_480_750.yuv" "434434344433433333333323433335";
   lv 5 53 "dis/FoxBird_65_480_1750.yuv" "444444444544534544434434455553";
   lv 5 54 "dis/FoxBird_80_1080_2300.yuv" "555545555555545544355445541154";
   lv 5 55 "dis/FoxBird_95_1080_5800.yuv" "555555355555545555555555554545";
   lv 5 5 "ref/FoxBird_25fps.yuv" "455555355555555555555555555245";
   lv 6 56 "dis/OldTownCross_20_288_375.yuv" "111121111211111111111111215352";
   lv 6 57 "dis/OldTownCross_45_384_750.yuv" "123221421312212121122122325134";
   lv 6 58 "dis/OldTownCross_55_480_750.yuv" "323432331433223222213222324125";
   lv 6 59 "dis/OldTownCross_60_480_1750.yuv" "332344543523432222333332435435";
   lv 6 60 "dis/OldTownCross_80_720_2350.yuv" "545344553545535544344444544444";
   lv 6 61 "dis/OldTownCross_85_720_2950.yuv" "453555554545543544445445532433";
   lv 6 62 "dis/OldTownCross_90_1080_4300.yuv" "554455455545545554555555552345";
   lv 6 6 "ref/OldTownCross_25fps.yuv" "354544544545553554355545553341";
   lv 7 63 "dis/Seeking_10_288_375.yuv" "111111111211111111111111115541";
   lv 7 64 "dis/Seeking_30_480_1050.yuv" "224132231223432221112221225451";
   lv 7 65 "dis/Seeking_45_480_1750.yuv" "223241342434333322232231332324";
   lv 7 66 "dis/Seeking_50_720_2350.yuv" "333435343533343342243322342553";
   lv 7 67 "dis/Seeking_60_720_3050.yuv" "443353333544535333344343544532";
   lv 7 68 "dis/Seeking_65_1080_4300.yuv" "444442354534444343244343545545";
   lv 7 69 "dis/Seeking_75_1080_5800.yuv" "454535455535445453443534454555";
   lv 7 70 "dis/Seeking_85_1080_7500.yuv" "353455444545555553455544552252";
   lv 7 71 "dis/Seeking_90_1080_15000.yuv" "555551353544545454354445555543";
   lv 7 72 "dis/Seeking_95_1080_20000.yuv" "555555444545434554455545555425";
   lv 7 7 "ref/Seeking_25fps.yuv" "555555455535555554554454554345";
   lv 8 73 "dis/Tennis_20_288_375.yuv" "212211131311211122221211315343";
   lv 8 74 "dis/Tennis_40_384_750.yuv" "122232533433433222232222232313";
   lv 8 75 "dis/Tennis_60_480_1050.yuv" "324433243444443224243233535355";
   lv 8 76 "dis/Tennis_70_480_1750.yuv" "335334341434533433332334434224";
   lv 8 77 "dis/Tennis_80_720_3050.yuv" "355355552554534454354344555455";
   lv 8 78 "dis/Tennis_90_1080_4300.yuv" "554355454554535455555454545552";
   lv 8 8 "ref/Tennis_24fps.yuv" "554554553555555554455545553343"]
  (Some "NFLX_public") (Some (Some (nofZ 5))) [].

(** test/resource/NFLX_dataset_public_raw_PARTIAL.py *)
Definition nflx_partial : dataset float string := Dataset
  [rv 1 "BirdsInCage" "ref/BirdsInCage_30fps.yuv";
   rv 2 "CrowdRun" "ref/CrowdRun_25fps.yuv";
   rv 3 "ElFuente1" "ref/ElFuente1_30fps.yuv";
   rv 4 "ElFuente2" "ref/ElFuente2_30fps.yuv";
   rv 6 "OldTownCross" "ref/OldTownCross_25fps.yuv";
   rv 7 "Seeking" "ref/Seeking_25fps.yuv";
   rv 8 "Tennis" "ref/Tennis_24fps.yuv"]
  [lv 1 1 "ref/BirdsInCage_30fps.yuv" "45555555454555555555555555";
   lv 2 2 "ref/CrowdRun_25fps.yuv" "55555545344555555445554555";
   lv 3 3 "ref/ElFuente1_30fps.yuv" "45555554454555455555555454";
   lv 4 4 "ref/ElFuente2_30fps.yuv" "55555555555555555445554555";
   lv 6 6 "ref/OldTownCross_25fps.yuv" "35454454454555355435554555";
   lv 7 7 "ref/Seeking_25fps.yuv" "55555545553555555455445455";
   lv 8 8 "ref/Tennis_24fps.yuv" "55455455355555555445554555";
   lv 1 19 "dis/BirdsInCage_40_288_375.yuv" "21332223133235112222121132";
   lv 1 20 "dis/BirdsInCage_50_288_550.yuv" "11332122132242312213221122";
   lv 1 21 "dis/BirdsInCage_60_384_550.yuv" "22431323342343312223332234";
   lv 1 22 "dis/BirdsInCage_65_384_750.yuv" "22433233353342323323232242";
   lv 1 23 "dis/BirdsInCage_80_480_750.yuv" "33444443353444434334334343";
   lv 1 24 "dis/BirdsInCage_85_720_1050.yuv" "44554544455445555344554454";
   lv 1 25 "dis/BirdsInCage_90_1080_1800.yuv" "55555555455555545555555554";
   lv 1 26 "dis/BirdsInCage_95_1080_3000.yuv" "45555555455545555555455555";
   lv 2 27 "dis/CrowdRun_03_288_375.yuv" "11111111111111111111111111";
   lv 2 28 "dis/CrowdRun_40_480_2350.yuv" "22222123131312222222122132";
   lv 2 29 "dis/CrowdRun_50_1080_4300.yuv" "23353313143434333212233233";
   lv 2 30 "dis/CrowdRun_65_1080_5800.yuv" "33434334344443333223434243";
   lv 2 31 "dis/CrowdRun_75_1080_7500.yuv" "33554535454444454324443453";
   lv 2 32 "dis/CrowdRun_80_1080_10000.yuv" "55554355454545454443444454";
   lv 2 33 "dis/CrowdRun_90_1080_15000.yuv" "55445445454444555455545454";
   lv 3 34 "dis/ElFuente1_10_288_375.yuv" "11111131122211111111111111";
   lv 3 35 "dis/ElFuente1_25_384_750.yuv" "11223111123332211111211112";
   lv 3 36 "dis/ElFuente1_50_480_1750.yuv" "33454434244343233233232243";
   lv 3 37 "dis/ElFuente1_60_720_2350.yuv" "23444434344443433333433344";
   lv 3 38 "dis/ElFuente1_70_1080_4300.yuv" "44555444455543554343434354";
   lv 3 39 "dis/ElFuente1_85_1080_5800.yuv" "44545554455455555454544555";
   lv 3 40 "dis/ElFuente1_90_1080_7500.yuv" "55555545454555455544554455";
   lv 4 41 "dis/ElFuente2_05_288_375.yuv" "11312111142111111111111121";
   lv 4 42 "dis/ElFuente2_30_480_1750.yuv" "12324232253443233232322123";
   lv 4 43 "dis/ElFuente2_50_720_3050.yuv" "21235423443443243222422234";
   lv 4 44 "dis/ElFuente2_60_1080_4300.yuv" "33525114443443324422433244";
   lv 4 45 "dis/ElFuente2_65_720_4250.yuv" "43425434453442345243543254";
   lv 4 46 "dis/ElFuente2_70_1080_5800.yuv" "52335445554455544334434254";
   lv 4 47 "dis/ElFuente2_80_1080_10000.yuv" "44455524555554545544434455";
   lv 4 48 "dis/ElFuente2_85_1080_15000.yuv" "55545545554543555554554455";
   lv 4 49 "dis/ElFuente2_90_1080_20000.yuv" "55445545554555555544555555";
   lv 6 56 "dis/OldTownCross_20_288_375.yuv" "11112111121111111111111121";
   lv 6 57 "dis/OldTownCross_45_384_750.yuv" "12322142131221212112212232";
   lv 6 58 "dis/OldTownCross_55_480_750.yuv" "32343233143322322221322232";
   lv 6 59 "dis/OldTownCross_60_480_1750.yuv" "33234454352343222233333243";
   lv 6 60 "dis/OldTownCross_80_720_2350.yuv" "54534455354553554434444454";
   lv 6 61 "dis/OldTownCross_85_720_2950.yuv" "45355555454554354444544553";
   lv 6 62 "dis/OldTownCross_90_1080_4300.yuv" "55445545554554555455555555";
   lv 8 73 "dis/Tennis_20_288_375.yuv" "21221113131121112222121131";
   lv 8 74 "dis/Tennis_40_384_750.yuv" "12223253343343322223222223";
   lv 8 75 "dis/Tennis_60_480_1050.yuv" "32443324344444322424323353";
   lv 8 76 "dis/Tennis_70_480_1750.yuv" "33533434143453343333233443";
   lv 8 77 "dis/Tennis_80_720_3050.yuv" "35535555255453445435434455";
   lv 8 78 "dis/Tennis_90_1080_4300.yuv" "55435545455453545555545454"]
  (Some "NFLX_public") (Some (Some (nofZ 5))) [].

(** test/resource/test_dataset_os_as_dict.py *)
Definition dataset_os_as_dict : dataset float string := Dataset
  [rv 0 "foo" "foo.png";
   rv 1 "bar" "bar.png"]
  [dv 0 0 "baz1.png" [("Tom", vote 3); ("Jerry", vote 4); ("Pinokio", vote 1)];
   dv 1 1 "baz2.png" [("Tom", vote 2); ("Jerry", vote 1); ("Pinokio", vote 3)];
   dv 0 2 "baz3.png" [("Tom", vote 4); ("Jerry", vote 1); ("Pinokio", vote 3)]]
  (Some "test_dataset_os_as_dict") (Some (Some (nofZ 5))) [].

(** test/resource/test_dataset_os_as_dict2.py *)
Definition dataset_os_as_dict2 : dataset float string := Dataset
  [rv 0 "foo" "foo.png";
   rv 1 "bar_2" "bar_2.png"]
  [dv 0 0 "baz1.png" [("Tom", vote 3); ("Merry", vote 4); ("Pipin", vote 1)];
   dv 1 1 "baz2_2.png" [("Tom", vote 2); ("Merry", vote 1); ("Pipin", vote 3)];
   dv 0 2 "baz3.png" [("Tom", vote 4); ("Merry", vote 1); ("Pipin", vote 3)]]
  (Some "test_dataset_os_as_dict2") (Some (Some (nofZ 5))) [].

(** test/resource/test_dataset_os_as_dict_with_repetitions.py *)
Definition dataset_os_as_dict_with_repetitions : dataset float string := Dataset
  [rv 0 "foo" "foo.png";
   rv 1 "bar" "bar.png"]
  [dv 0 0 "baz1.png" [("Tom", PSeq true [vote 3; vote 2]); ("Jerry", vote 4); ("Pinokio", vote 1)];
   dv 1 1 "baz2.png" [("Tom", PSeq true [vote 2; vote 2]); ("Jerry", vote 1); ("Pinokio", PSeq true [vote 3; vote 3; vote 1])];
   dv 0 2 "baz3.png" [("Tom", vote 4); ("Jerry", vote 1); ("Pinokio", vote 3)]]
  (Some "test_dataset_os_as_dict_with_repetitions") (Some (Some (nofZ 5))) [].

(** test/resource/test_dataset_os_as_list_with_repetitions.py *)
Definition dataset_os_as_list_with_repetitions : dataset float string := Dataset
  [rv 0 "foo" "foo.png";
   rv 1 "bar" "bar.png"]
  [DVideo 0 0 "baz1.png" (Some (OSeq true [PSeq true [vote 3; vote 2]; vote 4; vote 1])) None None [];
   DVideo 1 1 "baz2.png" (Some (OSeq true [PSeq true [vote 2; vote 2]; vote 1; PSeq true [vote 3; vote 3; vote 1]])) None None [];
   DVideo 0 2 "baz3.png" (Some (OSeq true [vote 4; vote 1; vote 3])) None None []]
  (Some "test_dataset_os_as_list_with_repetitions") (Some (Some (nofZ 5))) [].

(** test/resource/lukas_pc_dataset.py: per video, (subject, asset id of the other
    video) to 1; [g] groups the entries by subject, in the order of the file. *)
Definition pv (c a : Z) (p : string) (g : list (string * list Z)) : dvideo float (string * Z) :=
  DVideo c a p (Some (ODict (flat_map (fun e => map (fun k => ((fst e, k), vote 1)) (snd e)) g))) None None [].
Definition lukas : dataset float (string * Z) := Dataset
  [rv 0 "Caps" "Caps1.png";
   rv 1 "parrots" "parrots1.png";
   rv 2 "redhat" "redhat1.png";
   rv 3 "isabe" "isabe1.png";
   rv 4 "barba" "barba1.png"]
  [pv 0 0 "Caps1.png"
     [("David R.", [2;3;4;5;6;7]); ("Fritol", [1;3;4;5;6;7]); ("Jana", [6;7]); ("Josef", [6;7]); ("Martin Vitvar", [3;4;5;6;7]); ("Petr Hl", [3;5;6;7]); ("Voldamic", [3;5;6;7]); ("budulinek", [3;4;5;6;7]); ("delcamat", [1;3;4;5;7]); ("dingo", [3;5;6;7]); ("dominik", [3;5;6;7]); ("eleanor", [1;2;3;4;5;6;7]); ("lukas", [1;3;4;5;6;7]); ("madrvojt", [3;4;5;6;7])];
   pv 0 1 "Caps2.png"
     [("David R.", [0;2;4;5;6;7]); ("Fritol", [2;3;4;5;6;7]); ("Jana", [0;3;4;5;6;7]); ("Josef", [0;3;4;5;6;7]); ("Martin Vitvar", [0;2;3;4;5;6;7]); ("Petr Hl", [0;2;4;5;6;7]); ("Voldamic", [0;2;3;4;5]); ("budulinek", [0;3;4;5;6;7]); ("cinklond", [0]); ("delcamat", [2;3;4;5;6;7]); ("dingo", [0;2;3;4;5;6;7]); ("dominik", [0;3;4;5;6;7]); ("eleanor", [2;3;4;5;6;7]); ("lukas", [2;3;4;5;6;7]); ("madrvojt", [0;3;4;5;6;7])];
   pv 0 2 "Caps3.png"
     [("David R.", [4;5;6;7]); ("Fritol", [0;3;4;5;6;7]); ("Jana", [0;1;3;4;6;7]); ("Josef", [0;1;4;5;6;7]); ("Martin Vitvar", [0;3;4;5;6;7]); ("Petr Hl", [0;3;4;5;6;7]); ("Voldamic", [0;3;5;6;7]); ("budulinek", [0;1;3;6;7]); ("cinklond", [0;1;6;7]); ("delcamat", [0;3;4;5;6;7]); ("dingo", [0;3;4;5;6;7]); ("dominik", [0;1;4;5;6;7]); ("eleanor", [3;4;5;6;7]); ("lukas", [0;3;4;5;6;7]); ("madrvojt", [0;1;5;6;7])];
   pv 0 3 "Caps4.png"
     [("David R.", [1;2;4;5;6;7]); ("Fritol", [5;6;7]); ("Jana", [0;6;7]); ("Josef", [0;2;4;5;6;7]); ("Martin Vitvar", [4;5;6;7]); ("Petr Hl", [1;4;5;6;7]); ("Voldamic", [7]); ("budulinek", [5;6;7]); ("cinklond", [0;1;2;6]); ("delcamat", [4;5;6;7]); ("dingo", [4;5;6;7]); ("dominik", [2;4;5;6;7]); ("eleanor", [4;5;6;7]); ("lukas", [4;5;6;7]); ("madrvojt", [2;4;5;6;7])];
   pv 0 4 "Caps5.png"
     [("David R.", [5;6;7]); ("Fritol", [3;5;6;7]); ("Jana", [0;3;6;7]); ("Josef", [0;6;7]); ("Martin Vitvar", [5;6;7]); ("Petr Hl", [0;5;6;7]); ("Voldamic", [0;2;3;7]); ("budulinek", [2;3;6;7]); ("cinklond", [0;1;2;3;5;6;7]); ("delcamat", [7]); ("dingo", [0;5;6;7]); ("dominik", [0;5;6;7]); ("eleanor", [6;7]); ("lukas", [5;6;7]); ("madrvojt", [2;5;6;7])];
   pv 0 5 "Caps6.png"
     [("David R.", [6;7]); ("Fritol", [6]); ("Jana", [0;2;3;4;7]); ("Josef", [0;4;6;7]); ("Martin Vitvar", [6;7]); ("Petr Hl", [6;7]); ("Voldamic", [3;4;6;7]); ("budulinek", [2;4;6;7]); ("cinklond", [0;1;2;3;7]); ("delcamat", [4;7]); ("dingo", [6;7]); ("dominik", [6;7]); ("eleanor", [4;6;7]); ("lukas", [7]); ("madrvojt", [7])];
   pv 0 6 "Caps7.png"
     [("David R.", [7]); ("Fritol", [7]); ("Jana", [5]); ("Josef", [7]); ("Martin Vitvar", [7]); ("Petr Hl", [7]); ("Voldamic", [1;3;4;7]); ("budulinek", [7]); ("cinklond", [0;1;5]); ("delcamat", [0;4;5]); ("dingo", [7]); ("lukas", [5;7]); ("madrvojt", [5;7])];
   pv 0 7 "Caps8.png"
     [("Fritol", [5]); ("Jana", [6]); ("Voldamic", [1]); ("cinklond", [0;1;3;6]); ("delcamat", [6]); ("dominik", [6]); ("eleanor", [6])];
   pv 1 8 "parrots1.png"
     [("David R.", [10;11;13;14;15]); ("Fritol", [14;15]); ("Jana", [10;12;13;14;15]); ("Josef", [11;12;13;14;15]); ("Martin Vitvar", [11;12;13;14;15]); ("Petr Hl", [12;14;15]); ("Voldamic", [10;11;12;13;14;15]); ("budulinek", [9;11;12;13;14;15]); ("cinklond", [13;14;15]); ("delcamat", [9;10;12;13;14;15]); ("dingo", [9;10;11;12;13;14;15]); ("dominik", [12;13;14;15]); ("eleanor", [9;10;11;12;13;14;15]); ("lukas", [9;10;11;12;13;14;15]); ("madrvojt", [9;11;12;13;14;15])];
   pv 1 9 "parrots2.png"
     [("David R.", [8;10;11;12;13;14;15]); ("Fritol", [8;11;12;13;14]); ("Jana", [8;11;12;13;14;15]); ("Josef", [8;11;12;13;14;15]); ("Martin Vitvar", [8;11;12;13;14;15]); ("Petr Hl", [8;12;13;14;15]); ("Voldamic", [8;10;11;12;14;15]); ("budulinek", [10;11;12;13;14;15]); ("cinklond", [8;10;11;12;13;14;15]); ("delcamat", [10;11;12;13;14;15]); ("dingo", [11;12;13;14;15]); ("dominik", [8;10;11;12;13;14;15]); ("eleanor", [10;11;12;13;14;15]); ("lukas", [10;11;12;13;14;15]); ("madrvojt", [10;11;12;13;14;15])];
   pv 1 10 "parrots3.png"
     [("David R.", [11;12;13;14;15]); ("Fritol", [8;9;11;12;15]); ("Jana", [9;11;12;13;14;15]); ("Josef", [8;9;11;12;13;14;15]); ("Martin Vitvar", [8;9;11;12;13;14;15]); ("Petr Hl", [8;9;12;13;14;15]); ("Voldamic", [11;12;13;14;15]); ("budulinek", [8;11;12;13;14;15]); ("cinklond", [8;11;12;13;14;15]); ("delcamat", [11;13;14;15]); ("dingo", [9;11;12;13;14;15]); ("dominik", [8;12;13;14;15]); ("eleanor", [11;12;13;14;15]); ("lukas", [11;12;13;14;15]); ("madrvojt", [8;11;12;13;14;15])];
   pv 1 11 "parrots4.png"
     [("David R.", [12;13;14;15]); ("Fritol", [8;14;15]); ("Jana", [8;12;13;14;15]); ("Josef", [12;13;14;15]); ("Martin Vitvar", [12;13;14;15]); ("Petr Hl", [8;9;10;13;14;15]); ("Voldamic", [12;13;14;15]); ("budulinek", [13;14;15]); ("cinklond", [8;12;13;14;15]); ("delcamat", [8;12;13;14]); ("dingo", [12;13;14;15]); ("dominik", [8;10;12;13;14;15]); ("eleanor", [13;14;15]); ("lukas", [12;13;14;15]); ("madrvojt", [13;14;15])];
   pv 1 12 "parrots5.png"
     [("David R.", [8;13;14;15]); ("Fritol", [8;11;14;15]); ("Jana", [13;14;15]); ("Josef", [13;14;15]); ("Martin Vitvar", [13;14;15]); ("Petr Hl", [11;14;15]); ("Voldamic", [13;15]); ("budulinek", [11;14;15]); ("cinklond", [8;13;14]); ("delcamat", [10;13;14;15]); ("dingo", [13;14;15]); ("dominik", [13;14;15]); ("eleanor", [11;14;15]); ("lukas", [14;15]); ("madrvojt", [11;15])];
   pv 1 13 "parrots6.png"
     [("David R.", [14;15]); ("Fritol", [8;10;11;12;14]); ("Jana", [14;15]); ("Josef", [14;15]); ("Martin Vitvar", [15]); ("Petr Hl", [8;12;14;15]); ("Voldamic", [9;15]); ("budulinek", [12;14]); ("cinklond", [15]); ("delcamat", [14;15]); ("dingo", [15]); ("dominik", [14;15]); ("eleanor", [12;14;15]); ("lukas", [12;15]); ("madrvojt", [12])];
   pv 1 14 "parrots7.png"
     [("David R.", [15]); ("Fritol", [10]); ("Jana", [15]); ("Josef", [15]); ("Martin Vitvar", [13;15]); ("Petr Hl", [15]); ("Voldamic", [12;13;15]); ("budulinek", [15]); ("cinklond", [13;15]); ("dingo", [13;15]); ("dominik", [15]); ("eleanor", [15]); ("lukas", [13;15]); ("madrvojt", [12;13;15])];
   pv 1 15 "parrots8.png"
     [("Fritol", [9;13;14]); ("budulinek", [13]); ("cinklond", [12]); ("delcamat", [11;14]); ("madrvojt", [13])];
   pv 2 16 "redhat1.png"
     [("David R.", [17;18;19;20;21;22;23]); ("Fritol", [17;18;19;20;21;22;23]); ("Jana", [18;19;20;21;22;23]); ("Josef", [18;19;20;21;22;23]); ("Martin Vitvar", [17;18;19;20;21;22;23]); ("Petr Hl", [17;18;19;20;21;22;23]); ("Voldamic", [17;18;19;20;21;22;23]); ("budulinek", [17;18;19;20;21;22;23]); ("cinklond", [17;18;19;20;21;22;23]); ("delcamat", [17;18;19;20;21;22;23]); ("dingo", [18;19;20;21;22;23]); ("dominik", [20;23]); ("eleanor", [17;18;19;20;21;22;23]); ("lukas", [17;18;19;20;21;22;23]); ("madrvojt", [17;19;20;21;22;23])];
   pv 2 17 "redhat2.png"
     [("David R.", [18;19;20;21;22;23]); ("Fritol", [18;19;20;21;22;23]); ("Jana", [16;18;19;20;21;22;23]); ("Josef", [16;18;19;20;21;22;23]); ("Martin Vitvar", [18;19;20;21;22;23]); ("Petr Hl", [18;19;20;21;22;23]); ("Voldamic", [21;22;23]); ("budulinek", [18;19;20;21;22;23]); ("cinklond", [18;19;20;21;22;23]); ("delcamat", [19;20;21;22;23]); ("dingo", [16;18;19;20;21;22;23]); ("dominik", [16;21;22;23]); ("eleanor", [18;19;20;21;22;23]); ("lukas", [18;19;20;21;22;23]); ("madrvojt", [18;19;20;21;22;23])];
   pv 2 18 "redhat3.png"
     [("David R.", [19;20;21;22;23]); ("Fritol", [20;21;22;23]); ("Jana", [20;21;22;23]); ("Josef", [19;20;21;22;23]); ("Martin Vitvar", [19;20;21;22;23]); ("Petr Hl", [20;21;22;23]); ("Voldamic", [17;19;20;21;22;23]); ("budulinek", [19;20;21;22;23]); ("cinklond", [19;20;21;22;23]); ("delcamat", [17;19;20;21;22;23]); ("dingo", [19;20;21;22;23]); ("dominik", [16;17;19;21;22;23]); ("eleanor", [19;20;21;22;23]); ("lukas", [19;20;21;22;23]); ("madrvojt", [16;19;20;21;22;23])];
   pv 2 19 "redhat4.png"
     [("David R.", [20;21;22;23]); ("Fritol", [18;20;21;22;23]); ("Jana", [18;20;21;22;23]); ("Josef", [20;21;22;23]); ("Martin Vitvar", [20;21;22;23]); ("Petr Hl", [18;20;21;22;23]); ("Voldamic", [17;21;22;23]); ("budulinek", [20;21;22;23]); ("cinklond", [20;21;22;23]); ("delcamat", [20;21;22;23]); ("dingo", [20;21;22;23]); ("dominik", [16;17;20;21;22;23]); ("eleanor", [20;21;22;23]); ("lukas", [20;21;22;23]); ("madrvojt", [20;21;22;23])];
   pv 2 20 "redhat5.png"
     [("David R.", [21;22;23]); ("Fritol", [21;22;23]); ("Jana", [22;23]); ("Josef", [21;22;23]); ("Martin Vitvar", [21;22;23]); ("Petr Hl", [21;22;23]); ("Voldamic", [17;19;21;22;23]); ("budulinek", [21;22;23]); ("cinklond", [21;22;23]); ("delcamat", [21;22;23]); ("dingo", [21;22;23]); ("dominik", [17;18;21;22;23]); ("eleanor", [22;23]); ("lukas", [21;22;23]); ("madrvojt", [21;22;23])];
   pv 2 21 "redhat6.png"
     [("David R.", [22;23]); ("Fritol", [22;23]); ("Jana", [20;22;23]); ("Josef", [22;23]); ("Martin Vitvar", [22;23]); ("Petr Hl", [22;23]); ("Voldamic", [22;23]); ("cinklond", [23]); ("delcamat", [22]); ("dingo", [22;23]); ("dominik", [16;22;23]); ("eleanor", [20;22;23]); ("lukas", [22;23]); ("madrvojt", [22])];
   pv 2 22 "redhat7.png"
     [("David R.", [23]); ("Fritol", [23]); ("Jana", [23]); ("Josef", [23]); ("Martin Vitvar", [23]); ("Voldamic", [23]); ("budulinek", [21]); ("cinklond", [21;23]); ("delcamat", [23]); ("dingo", [23]); ("dominik", [16;23]); ("eleanor", [23]); ("lukas", [23]); ("madrvojt", [23])];
   pv 2 23 "redhat8.png"
     [("Petr Hl", [22]); ("budulinek", [21;22]); ("delcamat", [21]); ("madrvojt", [21])];
   pv 3 24 "isabe1.png"
     [("Jana", [30;31]); ("Josef", [28;29;30;31]); ("Martin Vitvar", [26;28;29;30;31]); ("Petr Hl", [25;26;27;28;29;30;31]); ("budulinek", [25;26;27;28;29;30;31]); ("delcamat", [25;26;29;30]); ("dingo", [31]); ("dominik", [31]); ("eleanor", [25;26;27;28;29;30;31]); ("lukas", [25;26;28;29;30;31]); ("madrvojt", [25;26;27;28;29;30;31])];
   pv 3 25 "isabe2.png"
     [("David R.", [24;29;30;31]); ("Fritol", [24;29]); ("Jana", [24;26;29;30;31]); ("Josef", [24;26;27;28;29;30;31]); ("Martin Vitvar", [24;26;27;28;29;30;31]); ("Petr Hl", [26;27;28;29;30;31]); ("Voldamic", [24;27;30;31]); ("budulinek", [26;27;28;29;30;31]); ("cinklond", [24;29;30]); ("delcamat", [26;27;28;29;30;31]); ("dingo", [24;26;28;29;30;31]); ("dominik", [24;26;30;31]); ("eleanor", [26;27;28;29;30;31]); ("lukas", [26;27;28;29;30;31]); ("madrvojt", [26;27;28;29;30;31])];
   pv 3 26 "isabe3.png"
     [("David R.", [24;25;27;28;29;30;31]); ("Fritol", [24;25;29;31]); ("Jana", [24;28;29;30;31]); ("Josef", [24;27;28;29;30;31]); ("Martin Vitvar", [27;28;29;30;31]); ("Petr Hl", [27;28;29;30;31]); ("Voldamic", [24;25;27;28;29;30;31]); ("budulinek", [27;29;30;31]); ("cinklond", [24;25;27;28;29;30;31]); ("delcamat", [27;28;29;30;31]); ("dingo", [24;28;29;30;31]); ("dominik", [24;27;28;29;30;31]); ("eleanor", [27;28;29;30;31]); ("lukas", [27;28;29;30;31]); ("madrvojt", [27;28;29;30;31])];
   pv 3 27 "isabe4.png"
     [("David R.", [24;25;28;29;30;31]); ("Fritol", [24;25;26;29;30;31]); ("Jana", [24;25;26;28;29;30;31]); ("Josef", [24;29;30;31]); ("Martin Vitvar", [24;28;29;30;31]); ("Petr Hl", [29;30;31]); ("Voldamic", [24;28;29;30;31]); ("budulinek", [28;29;30;31]); ("cinklond", [24;25;28;29;30;31]); ("delcamat", [24;28;29;30;31]); ("dingo", [24;25;26;29;30;31]); ("dominik", [24;25;28;29;30;31]); ("eleanor", [28;29;30;31]); ("lukas", [24;28;29;30;31]); ("madrvojt", [29;30;31])];
   pv 3 28 "isabe5.png"
     [("David R.", [24;25;30;31]); ("Fritol", [24;25;26;27;30;31]); ("Jana", [24;25;29;30;31]); ("Josef", [27;30;31]); ("Martin Vitvar", [29;30;31]); ("Petr Hl", [27;30;31]); ("Voldamic", [24;25;30;31]); ("budulinek", [26;31]); ("cinklond", [24;25;29;30;31]); ("delcamat", [24;29;31]); ("dingo", [24;27;29;30;31]); ("dominik", [24;25;29;30;31]); ("eleanor", [29;30;31]); ("lukas", [29;30;31]); ("madrvojt", [27;29;30;31])];
   pv 3 29 "isabe6.png"
     [("David R.", [24;28;30;31]); ("Fritol", [24;28;30]); ("Jana", [24;30;31]); ("Josef", [28]); ("Martin Vitvar", [30;31]); ("Petr Hl", [28;30;31]); ("Voldamic", [24;25;28;30;31]); ("budulinek", [28;31]); ("cinklond", [24;30;31]); ("delcamat", [31]); ("dingo", [24;30;31]); ("dominik", [24;25;30;31]); ("eleanor", [30;31]); ("lukas", [31]); ("madrvojt", [30;31])];
   pv 3 30 "isabe7.png"
     [("David R.", [24;31]); ("Fritol", [24;25;26;31]); ("Jana", [31]); ("Josef", [29]); ("Martin Vitvar", [31]); ("Voldamic", [24;31]); ("budulinek", [28;29;31]); ("cinklond", [24;31]); ("delcamat", [28;29;31]); ("dingo", [24]); ("dominik", [24;31]); ("eleanor", [31]); ("lukas", [29;31]); ("madrvojt", [31])];
   pv 3 31 "isabe8.png"
     [("David R.", [24]); ("Fritol", [24;25;29]); ("Josef", [29;30]); ("Petr Hl", [30]); ("Voldamic", [24]); ("cinklond", [24;25]); ("delcamat", [24]); ("dingo", [30])];
   pv 4 32 "barba1.png"
     [("Bouse", [39]); ("Breitkopf", [36;38]); ("Elena", [38;39]); ("Jenik S.", [39]); ("Jindrich Adolf", [34;37]); ("MartinBlazek", [33;35;39]); ("Toman", [36;38])];
   pv 4 33 "barba2.png"
     [("Bouse", [32;35]); ("Breitkopf", [32;37;39]); ("David Rohrich", [32]); ("DominikStorek", [32]); ("Elena", [32;36;38;39]); ("Filip", [32]); ("Honza B.", [32]); ("Jenik S.", [32;35;39]); ("Jindrich Adolf", [32;34;37;38]); ("MartinBlazek", [36;38]); ("Michal Bolek", [32;38;39]); ("Petr SKA", [32;36]); ("PokornyTomas", [32;35;39]); ("Toman", [32;35;38]); ("lukestom", [32]); ("standa", [32])];
   pv 4 34 "barba3.png"
     [("Bouse", [32;33;36;37;38;39]); ("Breitkopf", [32;33;38;39]); ("David Rohrich", [32;33;35;36;39]); ("DominikStorek", [32;33]); ("Elena", [32;33;36;38;39]); ("Filip", [32;33]); ("Honza B.", [32;33]); ("Jenik S.", [32;33;38;39]); ("Jindrich Adolf", [35;36;37;38;39]); ("MartinBlazek", [32;33;35;36;38;39]); ("Michal Bolek", [32;33;35;38;39]); ("Petr SKA", [32;33;37]); ("PokornyTomas", [32;33;35;38;39]); ("Toman", [32;33;37;38;39]); ("lukestom", [32;33;36;37;38;39]); ("standa", [32;33;35;36;38;39])];
   pv 4 35 "barba4.png"
     [("Bouse", [32;34;37;39]); ("Breitkopf", [32;33;34;36;37;38;39]); ("David Rohrich", [32;33]); ("DominikStorek", [32;33;34;36]); ("Elena", [32;33;34;37;38;39]); ("Filip", [32;33;34;38;39]); ("Honza B.", [32;33;34;38]); ("Jenik S.", [32;34;36;37;38]); ("Jindrich Adolf", [32;33;36;37;38;39]); ("MartinBlazek", [33;36;37;38;39]); ("Michal Bolek", [32;33;36;37;38;39]); ("Petr SKA", [32;33;34;38;39]); ("PokornyTomas", [32;36;38;39]); ("Toman", [32;34;37;38;39]); ("lukestom", [32;33;34;36;37;38;39]); ("standa", [32;33;36;37;38;39])];
   pv 4 36 "barba5.png"
     [("Bouse", [32;33;35;38;39]); ("Breitkopf", [33;34;38;39]); ("David Rohrich", [32;33;35;37;38;39]); ("DominikStorek", [32;33;34]); ("Elena", [32;35;38;39]); ("Filip", [32;33;34;35]); ("Honza B.", [32;33;34;35;38;39]); ("Jenik S.", [32;33;34;37;38;39]); ("Jindrich Adolf", [32;33;37;38;39]); ("MartinBlazek", [32;37;38;39]); ("Michal Bolek", [32;33;34;37;38;39]); ("Petr SKA", [32;34;35]); ("PokornyTomas", [32;33;34;38;39]); ("Toman", [33;34;35;37;38;39]); ("lukestom", [32;33;37;38;39]); ("standa", [32;33;37;38;39])];
   pv 4 37 "barba6.png"
     [("Bouse", [32;33;36;39]); ("Breitkopf", [32;34;36;38;39]); ("David Rohrich", [32;33;34;35;39]); ("DominikStorek", [32;33;34;35;36;38;39]); ("Elena", [32;33;34;36;39]); ("Filip", [32;33;34;35;36;39]); ("Honza B.", [32;33;34;35;36;38;39]); ("Jenik S.", [32;33;34;38;39]); ("Jindrich Adolf", [38;39]); ("MartinBlazek", [32;33;34;38;39]); ("Michal Bolek", [32;33;34;39]); ("Petr SKA", [32;33;35;36]); ("PokornyTomas", [32;33;34;35;36;38;39]); ("Toman", [32;33;38;39]); ("lukestom", [32;33;38;39]); ("standa", [32;33;34;38;39])];
   pv 4 38 "barba7.png"
     [("Bouse", [32;33;35;37]); ("Breitkopf", [33;39]); ("David Rohrich", [32;33;34;35;37;39]); ("DominikStorek", [32;33;34;35;36]); ("Elena", [37;39]); ("Filip", [32;33;34;36;37;39]); ("Honza B.", [32;33;34;39]); ("Jenik S.", [32;33;39]); ("Jindrich Adolf", [32;39]); ("MartinBlazek", [32;39]); ("Michal Bolek", [32;37;39]); ("Petr SKA", [32;33;34;36;37;39]); ("PokornyTomas", [32;33]); ("Toman", [39]); ("lukestom", [32;33;39]); ("standa", [32;33])];
   pv 4 39 "barba8.png"
     [("Bouse", [33;38]); ("Breitkopf", [32]); ("David Rohrich", [32;33;35]); ("DominikStorek", [32;33;34;35;36;38]); ("Filip", [32;33;34;36]); ("Honza B.", [32;33;34;35]); ("Jenik S.", [35]); ("Jindrich Adolf", [32;33]); ("MartinBlazek", [33]); ("Michal Bolek", [32]); ("Petr SKA", [32;33;34;36;37]); ("PokornyTomas", [32;38]); ("Toman", [32;33]); ("lukestom", [32;33]); ("standa", [32;33;38])]]
  (Some "Lukas_SPIE14") (Some (Some (nofZ 0))) [].

(** The draws of np.random.seed(0) followed by five times np.random.shuffle of 79
    rows (legacy Mersenne Twister): row i becomes row [nth i p]. *)
Definition seed0_shuffles : list (list nat) :=
  [[49;27;30;63;45;69;74;76;48;57;40;62;2;71;56;34;3;22;7;26;42;38;41;78;54;17;59;61;6;55;72;4;33;52;28;11;50;23;10;31;43;60;1;32;66;14;53;19;29;24;35;18;0;77;15;5;68;16;51;20;73;8;13;25;37;46;39;65;58;12;70;36;21;9;75;67;64;47;44];
   [4;44;62;24;5;37;12;7;74;51;40;46;72;26;38;67;28;54;55;33;75;61;6;25;32;63;16;19;45;31;8;11;22;53;1;14;27;17;73;77;18;57;30;66;56;2;71;43;10;65;9;21;39;59;70;42;60;76;29;69;34;36;50;78;0;64;35;41;49;48;13;23;58;20;15;52;3;47;68];
   [0;26;76;66;42;73;45;47;27;34;46;17;72;30;68;9;55;50;39;77;28;58;19;2;44;49;37;65;63;10;20;8;48;64;23;5;22;35;12;52;51;3;43;54;75;1;70;38;74;53;40;18;41;15;71;7;13;31;69;6;57;62;59;36;32;33;78;60;25;21;29;24;16;56;11;67;4;14;61];
   [13;65;15;66;43;54;32;57;59;63;41;67;4;10;16;70;24;45;55;46;23;72;31;26;38;14;9;71;19;42;28;58;7;6;47;60;22;11;21;68;78;12;37;74;2;20;51;17;18;75;49;29;30;50;64;39;3;25;48;73;52;40;27;56;35;1;61;8;62;53;69;76;0;36;5;33;77;34;44];
   [19;48;68;38;60;40;21;54;52;69;66;59;12;2;33;74;31;17;29;3;47;56;65;50;51;24;70;75;73;78;37;77;62;9;49;16;44;6;1;23;43;30;34;18;41;35;27;46;10;26;45;67;39;4;11;53;57;15;63;0;5;76;61;8;7;22;20;28;14;42;32;25;36;64;55;58;13;71;72]]%nat.

(** Where np.random.uniform(size=(79, 26, 1)) after np.random.seed(0) is at most 0.1:
    per video, one digit per subject (1: missing). *)
Definition seed0_missing10 : list string :=
  ["00000000000000111000000000";
   "00000000100000000100000000";
   "00000000000000010100000100";
   "00001000010000000001010000";
   "00000000000000000000001000";
   "00000000000000000000000000";
   "00010000001000010100000100";
   "00000000000000001000001100";
   "00000010000000000000000001";
   "00000000000000000000010000";
   "00100000100000000000000100";
   "00000000001000000100010100";
   "11000000001000000000100000";
   "00000101000001000000000000";
   "00000000000000000000000000";
   "10001000100010000001101000";
   "01000000000100000000000000";
   "01000000000000010000000000";
   "00000000000010000000000000";
   "00000000000001000000000000";
   "00101000101000000000100001";
   "00000100010000000000000001";
   "00000000000100111000000000";
   "00000100000000001000000000";
   "00000010000000000000000001";
   "00000100000000000000000100";
   "00000010000000010000010000";
   "11000110000000000000100000";
   "00000000000010100100000000";
   "00010000000000000000000000";
   "00000001000000000000100000";
   "00000000000000010100000000";
   "00000100000000000000100000";
   "00000000000000000000000000";
   "00000000000000000001000000";
   "01010000000000000100010100";
   "00000010000000000000000000";
   "00000010000000000000000000";
   "00100001000001001001000000";
   "10000000000000000100000000";
   "00001000000100000000001101";
   "10001000000000000000100000";
   "00001000000000010000000001";
   "00000000000010000000000000";
   "00000010000000000000010000";
   "00000000000000000000000000";
   "00100000000010100100000000";
   "00000000000010001100000000";
   "00000000000000000000000100";
   "00000000100000100000100000";
   "00000001000100000000011000";
   "01100000000000000000000000";
   "00011000000000000000010010";
   "00010000000000000000000000";
   "00010000000100001000000000";
   "00000000000000000000000000";
   "00000000000000100000000010";
   "10000000000001001000000000";
   "00100000000000000000000001";
   "00000000000000000000001000";
   "00100010000000110000000000";
   "01000000100000000000000000";
   "00000100000000000000110000";
   "00000000010100000000000000";
   "00001000000000100001000000";
   "00000000000001000000001000";
   "00000000000000000101000100";
   "00000100000000000000001000";
   "00000000001000010000000010";
   "00000000001001000000000100";
   "00000000000000000000000000";
   "00000000000000010000000000";
   "00001000000100000000000000";
   "10000000000010000000001001";
   "00100010000010010000001100";
   "00000000000000000000010010";
   "00000000000000001000000000";
   "00000000000110000010000001";
   "00001000000001000000010100"].

(** Where np.random.uniform(size=(79, 26, 1)) after np.random.seed(0) is at most 0.5:
    per video, one digit per subject (1: missing). *)
Definition seed0_missing50 : list string :=
  ["00001010010000111000001010";
   "10011010100000110100111101";
   "01110111110111010101000111";
   "11111001010010101101010100";
   "10001010010100000000101101";
   "01110000010110001000101010";
   "00110100001101011101100110";
   "01000001111001111110111101";
   "00010110110000101001001101";
   "11111001010101111000010001";
   "11100010110010100000100111";
   "01101101011000001111110101";
   "11011000111111001110100011";
   "01111101010001100011101001";
   "01010001001100100100000101";
   "11101011111010011101111111";
   "11100011010101101001010110";
   "01110000101101010011101111";
   "01000000000111111010001001";
   "01111011001001111100001100";
   "01101100111101110000100001";
   "00010110011100010000000001";
   "11011010101101111000001011";
   "10110101110111011100101000";
   "00001111100011000001110001";
   "10110111101011110100110100";
   "00111110100001010101110011";
   "11111110100111101000101000";
   "01011110101110110100001000";
   "10111101110001000111011100";
   "11001111110101001111101100";
   "01001010111100111110100101";
   "00010110111010011000100011";
   "11001100110101011111000100";
   "01001011100100110111001111";
   "01010011010010000101011110";
   "11101110110100101111100010";
   "11111010010001011000000100";
   "10111001001001101001100111";
   "11110010000011011100011110";
   "11001100101111011000011101";
   "10011011011000101000100011";
   "00101000101000011111111101";
   "00000100001011010100101110";
   "11101010110010100110110100";
   "11100011010001110000001110";
   "01111000010010100100110000";
   "01011010111111011111010000";
   "01001001100010100001001100";
   "00010010111011111001100101";
   "01100001000111000000011100";
   "01101001010011100000111011";
   "10011100001000010000011010";
   "11010100011110100000001111";
   "00110010011111101111110000";
   "11111010001110110000010010";
   "00010010001100101011010011";
   "10000011101001111110110000";
   "00111001001000000010101001";
   "10000110111100100001101100";
   "00100111110011111000000000";
   "01010011101001011001010001";
   "11000111110000000010111101";
   "00110100010111100101000101";
   "01101100110001110001111000";
   "01011010100001101110111011";
   "10100011011111111111100100";
   "10001111010111001010101000";
   "01001011111000010111010010";
   "00000101011101000000001100";
   "01100000111010010101001100";
   "10111111011001011111100000";
   "11101101011101101000001000";
   "10000100000010111100111011";
   "00100111101011010010011100";
   "00101000111001011101011110";
   "10010010011100101010010001";
   "01010111111111101011100111";
   "01001100000101101001010101"].

(** The number of subjects of lukas_pc_dataset.py preferring video i to video j,
    counted from the file. *)
Definition lukas_wins : list (list Z) :=
  [[0;4;2;12;8;12;13;14;0;0;0;0;0;0;0;0;0;0;0;0;0;0;0;0;0;0;0;0;0;0;0;0;0;0;0;0;0;0;0;0];
   [11;0;9;12;14;14;13;13;0;0;0;0;0;0;0;0;0;0;0;0;0;0;0;0;0;0;0;0;0;0;0;0;0;0;0;0;0;0;0;0];
   [13;6;0;10;11;12;15;15;0;0;0;0;0;0;0;0;0;0;0;0;0;0;0;0;0;0;0;0;0;0;0;0;0;0;0;0;0;0;0;0];
   [3;3;5;0;10;12;14;14;0;0;0;0;0;0;0;0;0;0;0;0;0;0;0;0;0;0;0;0;0;0;0;0;0;0;0;0;0;0;0;0];
   [7;1;4;5;0;9;13;15;0;0;0;0;0;0;0;0;0;0;0;0;0;0;0;0;0;0;0;0;0;0;0;0;0;0;0;0;0;0;0;0];
   [3;1;3;3;6;0;10;14;0;0;0;0;0;0;0;0;0;0;0;0;0;0;0;0;0;0;0;0;0;0;0;0;0;0;0;0;0;0;0;0];
   [2;2;0;1;2;5;0;10;0;0;0;0;0;0;0;0;0;0;0;0;0;0;0;0;0;0;0;0;0;0;0;0;0;0;0;0;0;0;0;0];
   [1;2;0;1;0;1;5;0;0;0;0;0;0;0;0;0;0;0;0;0;0;0;0;0;0;0;0;0;0;0;0;0;0;0;0;0;0;0;0;0];
   [0;0;0;0;0;0;0;0;0;6;7;9;12;13;15;15;0;0;0;0;0;0;0;0;0;0;0;0;0;0;0;0;0;0;0;0;0;0;0;0];
   [0;0;0;0;0;0;0;0;9;0;9;14;15;14;15;14;0;0;0;0;0;0;0;0;0;0;0;0;0;0;0;0;0;0;0;0;0;0;0;0];
   [0;0;0;0;0;0;0;0;8;6;0;13;14;14;14;15;0;0;0;0;0;0;0;0;0;0;0;0;0;0;0;0;0;0;0;0;0;0;0;0];
   [0;0;0;0;0;0;0;0;6;1;2;0;10;14;15;14;0;0;0;0;0;0;0;0;0;0;0;0;0;0;0;0;0;0;0;0;0;0;0;0];
   [0;0;0;0;0;0;0;0;3;0;1;5;0;9;13;14;0;0;0;0;0;0;0;0;0;0;0;0;0;0;0;0;0;0;0;0;0;0;0;0];
   [0;0;0;0;0;0;0;0;2;1;1;1;6;0;9;12;0;0;0;0;0;0;0;0;0;0;0;0;0;0;0;0;0;0;0;0;0;0;0;0];
   [0;0;0;0;0;0;0;0;0;0;1;0;2;6;0;13;0;0;0;0;0;0;0;0;0;0;0;0;0;0;0;0;0;0;0;0;0;0;0;0];
   [0;0;0;0;0;0;0;0;0;1;0;1;1;3;2;0;0;0;0;0;0;0;0;0;0;0;0;0;0;0;0;0;0;0;0;0;0;0;0;0];
   [0;0;0;0;0;0;0;0;0;0;0;0;0;0;0;0;0;11;13;14;15;14;14;15;0;0;0;0;0;0;0;0;0;0;0;0;0;0;0;0];
   [0;0;0;0;0;0;0;0;0;0;0;0;0;0;0;0;4;0;12;13;13;15;15;15;0;0;0;0;0;0;0;0;0;0;0;0;0;0;0;0];
   [0;0;0;0;0;0;0;0;0;0;0;0;0;0;0;0;2;3;0;12;14;15;15;15;0;0;0;0;0;0;0;0;0;0;0;0;0;0;0;0];
   [0;0;0;0;0;0;0;0;0;0;0;0;0;0;0;0;1;2;3;0;14;15;15;15;0;0;0;0;0;0;0;0;0;0;0;0;0;0;0;0];
   [0;0;0;0;0;0;0;0;0;0;0;0;0;0;0;0;0;2;1;1;0;13;15;15;0;0;0;0;0;0;0;0;0;0;0;0;0;0;0;0];
   [0;0;0;0;0;0;0;0;0;0;0;0;0;0;0;0;1;0;0;0;2;0;13;12;0;0;0;0;0;0;0;0;0;0;0;0;0;0;0;0];
   [0;0;0;0;0;0;0;0;0;0;0;0;0;0;0;0;1;0;0;0;0;2;0;13;0;0;0;0;0;0;0;0;0;0;0;0;0;0;0;0];
   [0;0;0;0;0;0;0;0;0;0;0;0;0;0;0;0;0;0;0;0;0;3;2;0;0;0;0;0;0;0;0;0;0;0;0;0;0;0;0;0];
   [0;0;0;0;0;0;0;0;0;0;0;0;0;0;0;0;0;0;0;0;0;0;0;0;0;6;7;4;7;8;9;10;0;0;0;0;0;0;0;0];
   [0;0;0;0;0;0;0;0;0;0;0;0;0;0;0;0;0;0;0;0;0;0;0;0;9;0;11;9;9;13;14;13;0;0;0;0;0;0;0;0];
   [0;0;0;0;0;0;0;0;0;0;0;0;0;0;0;0;0;0;0;0;0;0;0;0;8;4;0;12;13;15;14;15;0;0;0;0;0;0;0;0];
   [0;0;0;0;0;0;0;0;0;0;0;0;0;0;0;0;0;0;0;0;0;0;0;0;11;6;3;0;10;15;15;15;0;0;0;0;0;0;0;0];
   [0;0;0;0;0;0;0;0;0;0;0;0;0;0;0;0;0;0;0;0;0;0;0;0;8;6;2;5;0;9;13;15;0;0;0;0;0;0;0;0];
   [0;0;0;0;0;0;0;0;0;0;0;0;0;0;0;0;0;0;0;0;0;0;0;0;7;2;0;0;6;0;11;13;0;0;0;0;0;0;0;0];
   [0;0;0;0;0;0;0;0;0;0;0;0;0;0;0;0;0;0;0;0;0;0;0;0;6;1;1;0;2;4;0;12;0;0;0;0;0;0;0;0];
   [0;0;0;0;0;0;0;0;0;0;0;0;0;0;0;0;0;0;0;0;0;0;0;0;5;2;0;0;0;2;3;0;0;0;0;0;0;0;0;0];
   [0;0;0;0;0;0;0;0;0;0;0;0;0;0;0;0;0;0;0;0;0;0;0;0;0;0;0;0;0;0;0;0;0;1;1;1;2;1;3;4];
   [0;0;0;0;0;0;0;0;0;0;0;0;0;0;0;0;0;0;0;0;0;0;0;0;0;0;0;0;0;0;0;0;15;0;1;4;3;2;5;5];
   [0;0;0;0;0;0;0;0;0;0;0;0;0;0;0;0;0;0;0;0;0;0;0;0;0;0;0;0;0;0;0;0;15;15;0;6;7;5;11;12];
   [0;0;0;0;0;0;0;0;0;0;0;0;0;0;0;0;0;0;0;0;0;0;0;0;0;0;0;0;0;0;0;0;15;12;10;0;9;10;13;12];
   [0;0;0;0;0;0;0;0;0;0;0;0;0;0;0;0;0;0;0;0;0;0;0;0;0;0;0;0;0;0;0;0;14;13;9;7;0;8;13;13];
   [0;0;0;0;0;0;0;0;0;0;0;0;0;0;0;0;0;0;0;0;0;0;0;0;0;0;0;0;0;0;0;0;15;14;11;6;8;0;10;15];
   [0;0;0;0;0;0;0;0;0;0;0;0;0;0;0;0;0;0;0;0;0;0;0;0;0;0;0;0;0;0;0;0;13;11;5;3;3;6;0;12];
   [0;0;0;0;0;0;0;0;0;0;0;0;0;0;0;0;0;0;0;0;0;0;0;0;0;0;0;0;0;0;0;0;12;11;4;4;3;1;4;0]].
