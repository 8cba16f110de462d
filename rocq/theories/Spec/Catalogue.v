(** The ASN.1 definitions of all the RFCs, by the module of /repo that should implement them. *)
From Coq Require Import List String Bool.
From Verif Require Import Asn1.Types Spec.X680.
From Verif Require Spec.Rfc1155 Spec.Rfc1157 Spec.Rfc1902 Spec.Rfc1905 Spec.Rfc2251 Spec.Rfc2314 Spec.Rfc2315
  Spec.Rfc2459 Spec.Rfc2511 Spec.Rfc2631 Spec.Rfc2634 Spec.Rfc2876 Spec.Rfc2985 Spec.Rfc2986 Spec.Rfc3058 Spec.Rfc3114
  Spec.Rfc3125 Spec.Rfc3161 Spec.Rfc3274 Spec.Rfc3279 Spec.Rfc3280 Spec.Rfc3281 Spec.Rfc3370 Spec.Rfc3412 Spec.Rfc3560
  Spec.Rfc3565 Spec.Rfc3657 Spec.Rfc3709 Spec.Rfc3739 Spec.Rfc3770 Spec.Rfc3779 Spec.Rfc3820 Spec.Rfc4010 Spec.Rfc4043
  Spec.Rfc4055 Spec.Rfc4073 Spec.Rfc4108 Spec.Rfc4210 Spec.Rfc4211 Spec.Rfc4334 Spec.Rfc4357 Spec.Rfc4476 Spec.Rfc4490
  Spec.Rfc4491 Spec.Rfc4683 Spec.Rfc4985 Spec.Rfc5035 Spec.Rfc5083 Spec.Rfc5084 Spec.Rfc5126 Spec.Rfc5208 Spec.Rfc5275
  Spec.Rfc5280 Spec.Rfc5480 Spec.Rfc5636 Spec.Rfc5649 Spec.Rfc5652 Spec.Rfc5697 Spec.Rfc5751 Spec.Rfc5752 Spec.Rfc5753
  Spec.Rfc5755 Spec.Rfc5913 Spec.Rfc5914 Spec.Rfc5915 Spec.Rfc5917 Spec.Rfc5934 Spec.Rfc5940 Spec.Rfc5958 Spec.Rfc5990
  Spec.Rfc6010 Spec.Rfc6019 Spec.Rfc6031 Spec.Rfc6032 Spec.Rfc6120 Spec.Rfc6210 Spec.Rfc6211 Spec.Rfc6402 Spec.Rfc6482
  Spec.Rfc6486 Spec.Rfc6664 Spec.Rfc6955 Spec.Rfc6960 Spec.Rfc7030 Spec.Rfc7191 Spec.Rfc7292 Spec.Rfc7296 Spec.Rfc7508
  Spec.Rfc7585 Spec.Rfc7633 Spec.Rfc7773 Spec.Rfc7894 Spec.Rfc7906 Spec.Rfc7914 Spec.Rfc8017 Spec.Rfc8018 Spec.Rfc8103
  Spec.Rfc8226 Spec.Rfc8360 Spec.Rfc8398 Spec.Rfc8410 Spec.Rfc8418 Spec.Rfc8419 Spec.Rfc8479 Spec.Rfc8494 Spec.Rfc8520
  Spec.Rfc8649 Spec.Rfc8696 Spec.Rfc8702 Spec.Rfc8708.
Import ListNotations.
Open Scope string_scope.
Open Scope list_scope.

(** Tables of definitions; the first entry of a name counts. *)
Definition definitions := list (string * sty).
Definition defined (d : definitions) (x : string) : option sty :=
  option_map snd (find (fun e => String.eqb (fst e) x) d).

(** rfc3852.py implements the same types as rfc5652.py.  The old PKCS modules re-export
    everything of rfc2459.py. *)
Definition catalogue : list (string * definitions) := [
  ("rfc1155", Rfc1155.rfc1155); ("rfc1157", Rfc1157.rfc1157); ("rfc1901", Rfc3412.rfc1901);
  ("rfc1902", Rfc1902.rfc1902); ("rfc1905", Rfc1905.rfc1905); ("rfc2251", Rfc2251.rfc2251);
  ("rfc2314", Rfc2314.rfc2314 ++ Rfc2459.rfc2459); ("rfc2315", Rfc2315.rfc2315 ++ Rfc2459.rfc2459);
  ("rfc2437", Rfc8017.rfc2437); ("rfc2459", Rfc2459.rfc2459); ("rfc2511", Rfc2511.rfc2511 ++ Rfc2459.rfc2459);
  ("rfc2560", Rfc6960.rfc2560); ("rfc2631", Rfc2631.rfc2631); ("rfc2634", Rfc2634.rfc2634);
  ("rfc2876", Rfc2876.rfc2876); ("rfc2985", Rfc2985.rfc2985); ("rfc2986", Rfc2986.rfc2986);
  ("rfc3058", Rfc3058.rfc3058); ("rfc3114", Rfc3114.rfc3114); ("rfc3125", Rfc3125.rfc3125);
  ("rfc3161", Rfc3161.rfc3161); ("rfc3274", Rfc3274.rfc3274); ("rfc3279", Rfc3279.rfc3279);
  ("rfc3280", Rfc3280.rfc3280); ("rfc3281", Rfc3281.rfc3281); ("rfc3370", Rfc3370.rfc3370);
  ("rfc3412", Rfc3412.rfc3412); ("rfc3414", Rfc3412.rfc3414); ("rfc3447", Rfc8017.rfc3447);
  ("rfc3560", Rfc3560.rfc3560); ("rfc3565", Rfc3565.rfc3565); ("rfc3657", Rfc3657.rfc3657);
  ("rfc3709", Rfc3709.rfc3709); ("rfc3739", Rfc3739.rfc3739); ("rfc3770", Rfc3770.rfc3770);
  ("rfc3779", Rfc3779.rfc3779); ("rfc3820", Rfc3820.rfc3820); ("rfc3852", Rfc5652.rfc5652);
  ("rfc4010", Rfc4010.rfc4010); ("rfc4043", Rfc4043.rfc4043); ("rfc4055", Rfc4055.rfc4055);
  ("rfc4073", Rfc4073.rfc4073); ("rfc4108", Rfc4108.rfc4108); ("rfc4210", Rfc4210.rfc4210);
  ("rfc4211", Rfc4211.rfc4211); ("rfc4334", Rfc4334.rfc4334); ("rfc4357", Rfc4357.rfc4357);
  ("rfc4476", Rfc4476.rfc4476); ("rfc4490", Rfc4490.rfc4490); ("rfc4491", Rfc4491.rfc4491);
  ("rfc4683", Rfc4683.rfc4683); ("rfc4985", Rfc4985.rfc4985); ("rfc5035", Rfc5035.rfc5035);
  ("rfc5083", Rfc5083.rfc5083); ("rfc5084", Rfc5084.rfc5084); ("rfc5126", Rfc5126.rfc5126);
  ("rfc5208", Rfc5208.rfc5208 ++ Rfc2459.rfc2459); ("rfc5275", Rfc5275.rfc5275); ("rfc5280", Rfc5280.rfc5280);
  ("rfc5480", Rfc5480.rfc5480); ("rfc5636", Rfc5636.rfc5636); ("rfc5649", Rfc5649.rfc5649);
  ("rfc5652", Rfc5652.rfc5652); ("rfc5697", Rfc5697.rfc5697); ("rfc5751", Rfc5751.rfc5751);
  ("rfc5752", Rfc5752.rfc5752); ("rfc5753", Rfc5753.rfc5753); ("rfc5755", Rfc5755.rfc5755);
  ("rfc5913", Rfc5913.rfc5913); ("rfc5914", Rfc5914.rfc5914); ("rfc5915", Rfc5915.rfc5915);
  ("rfc5917", Rfc5917.rfc5917); ("rfc5934", Rfc5934.rfc5934); ("rfc5940", Rfc5940.rfc5940);
  ("rfc5958", Rfc5958.rfc5958); ("rfc5990", Rfc5990.rfc5990); ("rfc6010", Rfc6010.rfc6010);
  ("rfc6019", Rfc6019.rfc6019); ("rfc6031", Rfc6031.rfc6031); ("rfc6032", Rfc6032.rfc6032);
  ("rfc6120", Rfc6120.rfc6120); ("rfc6210", Rfc6210.rfc6210); ("rfc6211", Rfc6211.rfc6211);
  ("rfc6402", Rfc6402.rfc6402); ("rfc6482", Rfc6482.rfc6482); ("rfc6486", Rfc6486.rfc6486);
  ("rfc6664", Rfc6664.rfc6664); ("rfc6955", Rfc6955.rfc6955); ("rfc6960", Rfc6960.rfc6960);
  ("rfc7030", Rfc7030.rfc7030); ("rfc7191", Rfc7191.rfc7191); ("rfc7292", Rfc7292.rfc7292);
  ("rfc7296", Rfc7296.rfc7296); ("rfc7508", Rfc7508.rfc7508); ("rfc7585", Rfc7585.rfc7585);
  ("rfc7633", Rfc7633.rfc7633); ("rfc7773", Rfc7773.rfc7773); ("rfc7894", Rfc7894.rfc7894);
  ("rfc7906", Rfc7906.rfc7906); ("rfc7914", Rfc7914.rfc7914); ("rfc8017", Rfc8017.rfc8017);
  ("rfc8018", Rfc8018.rfc8018); ("rfc8103", Rfc8103.rfc8103); ("rfc8226", Rfc8226.rfc8226);
  ("rfc8360", Rfc8360.rfc8360); ("rfc8398", Rfc8398.rfc8398); ("rfc8410", Rfc8410.rfc8410);
  ("rfc8418", Rfc8418.rfc8418); ("rfc8419", Rfc8419.rfc8419); ("rfc8479", Rfc8479.rfc8479);
  ("rfc8494", Rfc8494.rfc8494); ("rfc8520", Rfc8520.rfc8520); ("rfc8649", Rfc8649.rfc8649);
  ("rfc8692", Rfc8702.rfc8692); ("rfc8696", Rfc8696.rfc8696); ("rfc8702", Rfc8702.rfc8702); ("rfc8708", Rfc8708.rfc8708)].

Definition definition (m x : string) : option sty :=
  match find (fun e => String.eqb (fst e) m) catalogue with
  | Some (_, d) => defined d x
  | None => None
  end.
