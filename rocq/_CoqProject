-Q theories Verif
theories/Pem/Text.v
theories/Pem/Base64.v
theories/Pem/Pem.v
theories/Pem/PemFacts.v
theories/Tools/DumpLoop.v
theories/Props/PemProps.v
theories/Py/Syntax.v
theories/Gen/All.v
theories/Gen/rfc1155.v
theories/Gen/rfc1157.v
theories/Gen/rfc1901.v
theories/Gen/rfc1902.v
theories/Gen/rfc1905.v
theories/Gen/rfc2251.v
theories/Gen/rfc2314.v
theories/Gen/rfc2315.v
theories/Gen/rfc2437.v
theories/Gen/rfc2459.v
theories/Gen/rfc2511.v
theories/Gen/rfc2560.v
theories/Gen/rfc2631.v
theories/Gen/rfc2634.v
theories/Gen/rfc2876.v
theories/Gen/rfc2985.v
theories/Gen/rfc2986.v
theories/Gen/rfc3058.v
theories/Gen/rfc3114.v
theories/Gen/rfc3125.v
theories/Gen/rfc3161.v
theories/Gen/rfc3274.v
theories/Gen/rfc3279.v
theories/Gen/rfc3280.v
theories/Gen/rfc3281.v
theories/Gen/rfc3370.v
theories/Gen/rfc3412.v
theories/Gen/rfc3414.v
theories/Gen/rfc3447.v
theories/Gen/rfc3537.v
theories/Gen/rfc3560.v
theories/Gen/rfc3565.v
theories/Gen/rfc3657.v
theories/Gen/rfc3709.v
theories/Gen/rfc3739.v
theories/Gen/rfc3770.v
theories/Gen/rfc3779.v
theories/Gen/rfc3820.v
theories/Gen/rfc3852.v
theories/Gen/rfc4010.v
theories/Gen/rfc4043.v
theories/Gen/rfc4055.v
theories/Gen/rfc4073.v
theories/Gen/rfc4108.v
theories/Gen/rfc4210.v
theories/Gen/rfc4211.v
theories/Gen/rfc4334.v
theories/Gen/rfc4357.v
theories/Gen/rfc4387.v
theories/Gen/rfc4476.v
theories/Gen/rfc4490.v
theories/Gen/rfc4491.v
theories/Gen/rfc4683.v
theories/Gen/rfc4985.v
theories/Gen/rfc5035.v
theories/Gen/rfc5083.v
theories/Gen/rfc5084.v
theories/Gen/rfc5126.v
theories/Gen/rfc5208.v
theories/Gen/rfc5275.v
theories/Gen/rfc5280.v
theories/Gen/rfc5480.v
theories/Gen/rfc5636.v
theories/Gen/rfc5639.v
theories/Gen/rfc5649.v
theories/Gen/rfc5652.v
theories/Gen/rfc5697.v
theories/Gen/rfc5751.v
theories/Gen/rfc5752.v
theories/Gen/rfc5753.v
theories/Gen/rfc5755.v
theories/Gen/rfc5913.v
theories/Gen/rfc5914.v
theories/Gen/rfc5915.v
theories/Gen/rfc5916.v
theories/Gen/rfc5917.v
theories/Gen/rfc5924.v
theories/Gen/rfc5934.v
theories/Gen/rfc5940.v
theories/Gen/rfc5958.v
theories/Gen/rfc5990.v
theories/Gen/rfc6010.v
theories/Gen/rfc6019.v
theories/Gen/rfc6031.v
theories/Gen/rfc6032.v
theories/Gen/rfc6120.v
theories/Gen/rfc6170.v
theories/Gen/rfc6187.v
theories/Gen/rfc6210.v
theories/Gen/rfc6211.v
theories/Gen/rfc6402.v
theories/Gen/rfc6482.v
theories/Gen/rfc6486.v
theories/Gen/rfc6487.v
theories/Gen/rfc6664.v
theories/Gen/rfc6955.v
theories/Gen/rfc6960.v
theories/Gen/rfc7030.v
theories/Gen/rfc7191.v
theories/Gen/rfc7229.v
theories/Gen/rfc7292.v
theories/Gen/rfc7296.v
theories/Gen/rfc7508.v
theories/Gen/rfc7585.v
theories/Gen/rfc7633.v
theories/Gen/rfc7773.v
theories/Gen/rfc7894.v
theories/Gen/rfc7906.v
theories/Gen/rfc7914.v
theories/Gen/rfc8017.v
theories/Gen/rfc8018.v
theories/Gen/rfc8103.v
theories/Gen/rfc8209.v
theories/Gen/rfc8226.v
theories/Gen/rfc8358.v
theories/Gen/rfc8360.v
theories/Gen/rfc8398.v
theories/Gen/rfc8410.v
theories/Gen/rfc8418.v
theories/Gen/rfc8419.v
theories/Gen/rfc8479.v
theories/Gen/rfc8494.v
theories/Gen/rfc8520.v
theories/Gen/rfc8619.v
theories/Gen/rfc8649.v
theories/Gen/rfc8692.v
theories/Gen/rfc8696.v
theories/Gen/rfc8702.v
theories/Gen/rfc8708.v
theories/Gen/rfc8769.v
theories/Asn1/Types.v
theories/Py/Eval.v
theories/Py/Mono.v
theories/Asn1/EqbFacts.v
theories/Load/Import.v
theories/Load/ImportFacts.v
theories/Load/Table.v
theories/Load/Computed.v
theories/Load/Registry.v
theories/Load/Session.v
theories/Load/Replay.v
theories/Props/ImportProps.v
theories/Asn1/Bytes.v
theories/Asn1/Charset.v
theories/Asn1/Codec.v
theories/Asn1/Der.v
theories/Asn1/Wf.v
theories/Asn1/RoundTrip.v
theories/Asn1/RoundTrip2.v
theories/Asn1/Open.v
theories/Asn1/Total.v
theories/Load/Schemas.v
theories/Load/Helper.v
theories/Load/Construct.v
theories/Asn1/Inside.v
theories/Asn1/Defaults.v
theories/Asn1/OpenDepth.v
theories/Asn1/Nesting.v
theories/Asn1/Opening.v
theories/Asn1/Widening.v
theories/Asn1/Reencode.v
theories/Asn1/Opened.v
theories/Load/Checked.v
theories/Load/CheckedFacts.v
theories/Load/Deep.v
theories/Load/MoreImports.v
theories/Props/CodecProps.v
theories/Tools/Recode.v
theories/Tools/Layers.v
theories/Tools/Programs.v
theories/Tools/Objects.v
theories/Tools/Snmp.v
theories/Tools/SnmpAnswer.v
theories/Tools/Ocsp.v
theories/Tools/Formats.v
theories/Tools/OcspAnswer.v
theories/Gen/Vectors.v
theories/Tools/TestLang.v
theories/Tools/TestRun.v
theories/Gen/TestPrograms.v
theories/Tools/SelfTest.v
theories/Props/ToolProps.v
theories/Props/TestProps.v
theories/Spec/X680.v
theories/Spec/X690.v
theories/Spec/Octets.v
theories/Spec/Spelling.v
theories/Spec/Agree.v
theories/Spec/Conform.v
theories/Spec/Looser.v
theories/Spec/Regular.v
theories/Spec/Reads.v
theories/Spec/Ber.v
theories/Spec/Leaves.v
theories/Spec/Accepts.v
theories/Spec/Complete.v
theories/Spec/Own.v
theories/Spec/Meant.v
theories/Spec/Rfc5280.v
theories/Spec/Rfc3280.v
theories/Spec/Rfc2459.v
theories/Spec/Rfc3281.v
theories/Spec/Rfc5652.v
theories/Spec/Rfc1155.v
theories/Spec/Rfc1157.v
theories/Spec/Rfc1902.v
theories/Spec/Rfc1905.v
theories/Spec/Rfc3412.v
theories/Spec/Rfc8017.v
theories/Spec/Rfc2986.v
theories/Spec/Rfc2314.v
theories/Spec/Rfc5208.v
theories/Spec/Rfc5958.v
theories/Spec/Rfc2315.v
theories/Spec/Rfc7292.v
theories/Spec/Rfc8018.v
theories/Spec/Rfc2985.v
theories/Spec/Rfc6960.v
theories/Spec/Rfc3161.v
theories/Spec/Rfc4211.v
theories/Spec/Rfc2251.v
theories/Spec/Rfc4210.v
theories/Spec/Rfc2511.v
theories/Spec/Rfc2631.v
theories/Spec/Rfc2634.v
theories/Spec/Rfc2876.v
theories/Spec/Rfc3058.v
theories/Spec/Rfc3114.v
theories/Spec/Rfc3125.v
theories/Spec/Rfc3274.v
theories/Spec/Rfc3279.v
theories/Spec/Rfc3370.v
theories/Spec/Rfc3560.v
theories/Spec/Rfc3565.v
theories/Spec/Rfc3657.v
theories/Spec/Rfc3709.v
theories/Spec/Rfc3739.v
theories/Spec/Rfc3770.v
theories/Spec/Rfc3779.v
theories/Spec/Rfc3820.v
theories/Spec/Rfc4010.v
theories/Spec/Rfc4043.v
theories/Spec/Rfc4055.v
theories/Spec/Rfc4073.v
theories/Spec/Rfc4108.v
theories/Spec/Rfc4334.v
theories/Spec/Rfc4357.v
theories/Spec/Rfc4476.v
theories/Spec/Rfc4490.v
theories/Spec/Rfc4491.v
theories/Spec/Rfc4683.v
theories/Spec/Rfc4985.v
theories/Spec/Rfc5035.v
theories/Spec/Rfc5083.v
theories/Spec/Rfc5084.v
theories/Spec/Rfc5126.v
theories/Spec/Rfc5275.v
theories/Spec/Rfc5480.v
theories/Spec/Rfc5636.v
theories/Spec/Rfc5649.v
theories/Spec/Rfc5697.v
theories/Spec/Rfc5751.v
theories/Spec/Rfc5752.v
theories/Spec/Rfc5753.v
theories/Spec/Rfc5755.v
theories/Spec/Rfc5913.v
theories/Spec/Rfc5914.v
theories/Spec/Rfc5915.v
theories/Spec/Rfc5917.v
theories/Spec/Rfc5934.v
theories/Spec/Rfc5940.v
theories/Spec/Rfc5990.v
theories/Spec/Rfc6010.v
theories/Spec/Rfc6019.v
theories/Spec/Rfc6031.v
theories/Spec/Rfc6032.v
theories/Spec/Rfc6120.v
theories/Spec/Rfc6210.v
theories/Spec/Rfc6211.v
theories/Spec/Rfc6402.v
theories/Spec/Rfc6482.v
theories/Spec/Rfc6486.v
theories/Spec/Rfc6664.v
theories/Spec/Rfc6955.v
theories/Spec/Rfc7030.v
theories/Spec/Rfc7191.v
theories/Spec/Rfc7296.v
theories/Spec/Rfc7508.v
theories/Spec/Rfc7585.v
theories/Spec/Rfc7633.v
theories/Spec/Rfc7773.v
theories/Spec/Rfc7894.v
theories/Spec/Rfc7906.v
theories/Spec/Rfc7914.v
theories/Spec/Rfc8103.v
theories/Spec/Rfc8226.v
theories/Spec/Rfc8360.v
theories/Spec/Rfc8398.v
theories/Spec/Rfc8410.v
theories/Spec/Rfc8418.v
theories/Spec/Rfc8419.v
theories/Spec/Rfc8479.v
theories/Spec/Rfc8494.v
theories/Spec/Rfc8520.v
theories/Spec/Rfc8649.v
theories/Spec/Rfc8696.v
theories/Spec/Rfc8702.v
theories/Spec/Rfc8708.v
theories/Spec/Catalogue.v
theories/Spec/Deviations.v
theories/Spec/Oids.v
theories/Spec/Associations.v
theories/Spec/Slots.v
theories/Spec/Checked.v
theories/Spec/Facts.v
theories/Spec/Filters.v
theories/Spec/Instances.v
theories/Spec/Registered.v
theories/Props/SpecProps.v
theories/Props/RegistryProps.v
theories/Tools/ScriptLang.v
theories/Gen/Scripts.v
theories/Tools/Script.v
theories/Tools/ScriptPem.v
theories/Tools/ScriptTools.v
theories/Tools/ScriptRuns.v
theories/Tools/ScriptMore.v
theories/Tools/ScriptLayers.v
theories/Props/ScriptProps.v
theories/Gen/ScriptSnmp.v
theories/Tools/ScriptSnmp.v
theories/Props/SnmpSourceProps.v
theories/Tools/ScriptTop.v
theories/Gen/ScriptOcsp.v
theories/Tools/ScriptOcsp.v
theories/Tools/ScriptOcspAnswer.v
theories/Props/OcspSourceProps.v
theories/Props/ClearanceProps.v
