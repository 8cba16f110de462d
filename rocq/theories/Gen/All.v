(** The table of all schema modules of pyasn1_modules/, printed by tools/py2coq.py. *)
From Verif Require Import Py.Syntax.
From Coq Require Import List String.
From Verif Require Gen.rfc1155.
From Verif Require Gen.rfc1157.
From Verif Require Gen.rfc1901.
From Verif Require Gen.rfc1902.
From Verif Require Gen.rfc1905.
From Verif Require Gen.rfc2251.
From Verif Require Gen.rfc2314.
From Verif Require Gen.rfc2315.
From Verif Require Gen.rfc2437.
From Verif Require Gen.rfc2459.
From Verif Require Gen.rfc2511.
From Verif Require Gen.rfc2560.
From Verif Require Gen.rfc2631.
From Verif Require Gen.rfc2634.
From Verif Require Gen.rfc2876.
From Verif Require Gen.rfc2985.
From Verif Require Gen.rfc2986.
From Verif Require Gen.rfc3058.
From Verif Require Gen.rfc3114.
From Verif Require Gen.rfc3125.
From Verif Require Gen.rfc3161.
From Verif Require Gen.rfc3274.
From Verif Require Gen.rfc3279.
From Verif Require Gen.rfc3280.
From Verif Require Gen.rfc3281.
From Verif Require Gen.rfc3370.
From Verif Require Gen.rfc3412.
From Verif Require Gen.rfc3414.
From Verif Require Gen.rfc3447.
From Verif Require Gen.rfc3537.
From Verif Require Gen.rfc3560.
From Verif Require Gen.rfc3565.
From Verif Require Gen.rfc3657.
From Verif Require Gen.rfc3709.
From Verif Require Gen.rfc3739.
From Verif Require Gen.rfc3770.
From Verif Require Gen.rfc3779.
From Verif Require Gen.rfc3820.
From Verif Require Gen.rfc3852.
From Verif Require Gen.rfc4010.
From Verif Require Gen.rfc4043.
From Verif Require Gen.rfc4055.
From Verif Require Gen.rfc4073.
From Verif Require Gen.rfc4108.
From Verif Require Gen.rfc4210.
From Verif Require Gen.rfc4211.
From Verif Require Gen.rfc4334.
From Verif Require Gen.rfc4357.
From Verif Require Gen.rfc4387.
From Verif Require Gen.rfc4476.
From Verif Require Gen.rfc4490.
From Verif Require Gen.rfc4491.
From Verif Require Gen.rfc4683.
From Verif Require Gen.rfc4985.
From Verif Require Gen.rfc5035.
From Verif Require Gen.rfc5083.
From Verif Require Gen.rfc5084.
From Verif Require Gen.rfc5126.
From Verif Require Gen.rfc5208.
From Verif Require Gen.rfc5275.
From Verif Require Gen.rfc5280.
From Verif Require Gen.rfc5480.
From Verif Require Gen.rfc5636.
From Verif Require Gen.rfc5639.
From Verif Require Gen.rfc5649.
From Verif Require Gen.rfc5652.
From Verif Require Gen.rfc5697.
From Verif Require Gen.rfc5751.
From Verif Require Gen.rfc5752.
From Verif Require Gen.rfc5753.
From Verif Require Gen.rfc5755.
From Verif Require Gen.rfc5913.
From Verif Require Gen.rfc5914.
From Verif Require Gen.rfc5915.
From Verif Require Gen.rfc5916.
From Verif Require Gen.rfc5917.
From Verif Require Gen.rfc5924.
From Verif Require Gen.rfc5934.
From Verif Require Gen.rfc5940.
From Verif Require Gen.rfc5958.
From Verif Require Gen.rfc5990.
From Verif Require Gen.rfc6010.
From Verif Require Gen.rfc6019.
From Verif Require Gen.rfc6031.
From Verif Require Gen.rfc6032.
From Verif Require Gen.rfc6120.
From Verif Require Gen.rfc6170.
From Verif Require Gen.rfc6187.
From Verif Require Gen.rfc6210.
From Verif Require Gen.rfc6211.
From Verif Require Gen.rfc6402.
From Verif Require Gen.rfc6482.
From Verif Require Gen.rfc6486.
From Verif Require Gen.rfc6487.
From Verif Require Gen.rfc6664.
From Verif Require Gen.rfc6955.
From Verif Require Gen.rfc6960.
From Verif Require Gen.rfc7030.
From Verif Require Gen.rfc7191.
From Verif Require Gen.rfc7229.
From Verif Require Gen.rfc7292.
From Verif Require Gen.rfc7296.
From Verif Require Gen.rfc7508.
From Verif Require Gen.rfc7585.
From Verif Require Gen.rfc7633.
From Verif Require Gen.rfc7773.
From Verif Require Gen.rfc7894.
From Verif Require Gen.rfc7906.
From Verif Require Gen.rfc7914.
From Verif Require Gen.rfc8017.
From Verif Require Gen.rfc8018.
From Verif Require Gen.rfc8103.
From Verif Require Gen.rfc8209.
From Verif Require Gen.rfc8226.
From Verif Require Gen.rfc8358.
From Verif Require Gen.rfc8360.
From Verif Require Gen.rfc8398.
From Verif Require Gen.rfc8410.
From Verif Require Gen.rfc8418.
From Verif Require Gen.rfc8419.
From Verif Require Gen.rfc8479.
From Verif Require Gen.rfc8494.
From Verif Require Gen.rfc8520.
From Verif Require Gen.rfc8619.
From Verif Require Gen.rfc8649.
From Verif Require Gen.rfc8692.
From Verif Require Gen.rfc8696.
From Verif Require Gen.rfc8702.
From Verif Require Gen.rfc8708.
From Verif Require Gen.rfc8769.
Import ListNotations.
Open Scope string_scope.

Definition all_modules : list (string * module) := [
  ("rfc1155", Gen.rfc1155.src);
  ("rfc1157", Gen.rfc1157.src);
  ("rfc1901", Gen.rfc1901.src);
  ("rfc1902", Gen.rfc1902.src);
  ("rfc1905", Gen.rfc1905.src);
  ("rfc2251", Gen.rfc2251.src);
  ("rfc2314", Gen.rfc2314.src);
  ("rfc2315", Gen.rfc2315.src);
  ("rfc2437", Gen.rfc2437.src);
  ("rfc2459", Gen.rfc2459.src);
  ("rfc2511", Gen.rfc2511.src);
  ("rfc2560", Gen.rfc2560.src);
  ("rfc2631", Gen.rfc2631.src);
  ("rfc2634", Gen.rfc2634.src);
  ("rfc2876", Gen.rfc2876.src);
  ("rfc2985", Gen.rfc2985.src);
  ("rfc2986", Gen.rfc2986.src);
  ("rfc3058", Gen.rfc3058.src);
  ("rfc3114", Gen.rfc3114.src);
  ("rfc3125", Gen.rfc3125.src);
  ("rfc3161", Gen.rfc3161.src);
  ("rfc3274", Gen.rfc3274.src);
  ("rfc3279", Gen.rfc3279.src);
  ("rfc3280", Gen.rfc3280.src);
  ("rfc3281", Gen.rfc3281.src);
  ("rfc3370", Gen.rfc3370.src);
  ("rfc3412", Gen.rfc3412.src);
  ("rfc3414", Gen.rfc3414.src);
  ("rfc3447", Gen.rfc3447.src);
  ("rfc3537", Gen.rfc3537.src);
  ("rfc3560", Gen.rfc3560.src);
  ("rfc3565", Gen.rfc3565.src);
  ("rfc3657", Gen.rfc3657.src);
  ("rfc3709", Gen.rfc3709.src);
  ("rfc3739", Gen.rfc3739.src);
  ("rfc3770", Gen.rfc3770.src);
  ("rfc3779", Gen.rfc3779.src);
  ("rfc3820", Gen.rfc3820.src);
  ("rfc3852", Gen.rfc3852.src);
  ("rfc4010", Gen.rfc4010.src);
  ("rfc4043", Gen.rfc4043.src);
  ("rfc4055", Gen.rfc4055.src);
  ("rfc4073", Gen.rfc4073.src);
  ("rfc4108", Gen.rfc4108.src);
  ("rfc4210", Gen.rfc4210.src);
  ("rfc4211", Gen.rfc4211.src);
  ("rfc4334", Gen.rfc4334.src);
  ("rfc4357", Gen.rfc4357.src);
  ("rfc4387", Gen.rfc4387.src);
  ("rfc4476", Gen.rfc4476.src);
  ("rfc4490", Gen.rfc4490.src);
  ("rfc4491", Gen.rfc4491.src);
  ("rfc4683", Gen.rfc4683.src);
  ("rfc4985", Gen.rfc4985.src);
  ("rfc5035", Gen.rfc5035.src);
  ("rfc5083", Gen.rfc5083.src);
  ("rfc5084", Gen.rfc5084.src);
  ("rfc5126", Gen.rfc5126.src);
  ("rfc5208", Gen.rfc5208.src);
  ("rfc5275", Gen.rfc5275.src);
  ("rfc5280", Gen.rfc5280.src);
  ("rfc5480", Gen.rfc5480.src);
  ("rfc5636", Gen.rfc5636.src);
  ("rfc5639", Gen.rfc5639.src);
  ("rfc5649", Gen.rfc5649.src);
  ("rfc5652", Gen.rfc5652.src);
  ("rfc5697", Gen.rfc5697.src);
  ("rfc5751", Gen.rfc5751.src);
  ("rfc5752", Gen.rfc5752.src);
  ("rfc5753", Gen.rfc5753.src);
  ("rfc5755", Gen.rfc5755.src);
  ("rfc5913", Gen.rfc5913.src);
  ("rfc5914", Gen.rfc5914.src);
  ("rfc5915", Gen.rfc5915.src);
  ("rfc5916", Gen.rfc5916.src);
  ("rfc5917", Gen.rfc5917.src);
  ("rfc5924", Gen.rfc5924.src);
  ("rfc5934", Gen.rfc5934.src);
  ("rfc5940", Gen.rfc5940.src);
  ("rfc5958", Gen.rfc5958.src);
  ("rfc5990", Gen.rfc5990.src);
  ("rfc6010", Gen.rfc6010.src);
  ("rfc6019", Gen.rfc6019.src);
  ("rfc6031", Gen.rfc6031.src);
  ("rfc6032", Gen.rfc6032.src);
  ("rfc6120", Gen.rfc6120.src);
  ("rfc6170", Gen.rfc6170.src);
  ("rfc6187", Gen.rfc6187.src);
  ("rfc6210", Gen.rfc6210.src);
  ("rfc6211", Gen.rfc6211.src);
  ("rfc6402", Gen.rfc6402.src);
  ("rfc6482", Gen.rfc6482.src);
  ("rfc6486", Gen.rfc6486.src);
  ("rfc6487", Gen.rfc6487.src);
  ("rfc6664", Gen.rfc6664.src);
  ("rfc6955", Gen.rfc6955.src);
  ("rfc6960", Gen.rfc6960.src);
  ("rfc7030", Gen.rfc7030.src);
  ("rfc7191", Gen.rfc7191.src);
  ("rfc7229", Gen.rfc7229.src);
  ("rfc7292", Gen.rfc7292.src);
  ("rfc7296", Gen.rfc7296.src);
  ("rfc7508", Gen.rfc7508.src);
  ("rfc7585", Gen.rfc7585.src);
  ("rfc7633", Gen.rfc7633.src);
  ("rfc7773", Gen.rfc7773.src);
  ("rfc7894", Gen.rfc7894.src);
  ("rfc7906", Gen.rfc7906.src);
  ("rfc7914", Gen.rfc7914.src);
  ("rfc8017", Gen.rfc8017.src);
  ("rfc8018", Gen.rfc8018.src);
  ("rfc8103", Gen.rfc8103.src);
  ("rfc8209", Gen.rfc8209.src);
  ("rfc8226", Gen.rfc8226.src);
  ("rfc8358", Gen.rfc8358.src);
  ("rfc8360", Gen.rfc8360.src);
  ("rfc8398", Gen.rfc8398.src);
  ("rfc8410", Gen.rfc8410.src);
  ("rfc8418", Gen.rfc8418.src);
  ("rfc8419", Gen.rfc8419.src);
  ("rfc8479", Gen.rfc8479.src);
  ("rfc8494", Gen.rfc8494.src);
  ("rfc8520", Gen.rfc8520.src);
  ("rfc8619", Gen.rfc8619.src);
  ("rfc8649", Gen.rfc8649.src);
  ("rfc8692", Gen.rfc8692.src);
  ("rfc8696", Gen.rfc8696.src);
  ("rfc8702", Gen.rfc8702.src);
  ("rfc8708", Gen.rfc8708.src);
  ("rfc8769", Gen.rfc8769.src)
].
