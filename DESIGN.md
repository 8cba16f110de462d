# A Rocq model of pyasn1-modules

pyasn1-modules is ~130 Python modules that build ASN.1 schema objects out of the
`pyasn1` library at import time, a small PEM reader (`pem.py`) and a few dump
tools.  What a user relies on is (a) the PEM reader, (b) that imports work in any
order and the shared open-type registries end up right, (c) that the schema
objects, fed to pyasn1's DER codec, encode and decode the protocol data correctly.

## Layers of the model (all under rocq/theories)

| layer | files | models |
|---|---|---|
| PEM | `Pem/*.v` | `pyasn1_modules/pem.py` line by line; Python `str.strip`, file `readline`, `base64.b64decode` |
| Python | `Py/Syntax.v`, `Py/Eval.v` | the Python subset the schema modules are written in, and its evaluation, including the pyasn1 type-construction API |
| Modules | `Gen/*.v` | one file per `/repo/pyasn1_modules/*.py`, produced statement by statement by `tools/py2coq.py` (a Python `ast` pretty-printer); each statement carries its source line |
| Imports | `Load/*.v` | `sys.modules`, nested imports, registry updates, arbitrary import histories; what a loaded module exports (`Schemas`), calling its classes (`Construct`) and functions (`Helper`) |
| ASN.1 | `Asn1/*.v` | pyasn1 types, values, constraints, DER encoder and decoder, open types |
| Spec | `Spec/X680.v`, `X690.v` | ASN.1 types and values, and DER, as in the standards |
| | `Spec/Rfc*.v`, `Catalogue.v`, `Oids.v` | the ASN.1 modules of the RFCs and the registered object identifiers |
| | `Spec/Agree.v` … `Reads.v`, `Ber.v`, `Accepts.v`, `Complete.v`, `Own.v`, `Meant.v`, `Regular.v`, `Filters.v` | when a schema object agrees with an ASN.1 type, and what follows for the codec |
| | `Spec/Associations.v`, `Slots.v`, `Registered.v` | which identifier stands for which type, which component is defined by which; the registries and open components against these |
| | `Spec/Deviations.v`, `Checked.v`, `Facts.v`, `Instances.v` | the comparison of all exported objects with the RFCs, and the exceptions |
| Tools | `Tools/*.v` | read loops of `tools/*.py` as programs; the test methods of `tests/*.py` (`TestLang.v`, `TestRun.v`, `SelfTest.v`; data in `Gen/Vectors.v`, `Gen/TestPrograms.v`); pem.py and twelve tools run from source (`ScriptLang.v`, `Script.v`; sources in `Gen/Scripts.v`); snmpget and ocspclient from source (`ScriptSnmp.v`, `ScriptOcsp.v`, `ScriptOcspAnswer.v`; `Gen/ScriptSnmp.v`, `Gen/ScriptOcsp.v`) |
| Props | `Props/*.v` | only theorem statements, closed by `exact`, with `Print Assumptions` and examples |

## How the properties are proved

* C01–C11: `Pem/`. Text is a list of code points, a file is its list of remaining
  characters, exceptions are values. Round trips by induction on payload/lines.
* C51, C52: `Tools/Objects.v` models filling in objects by position, as snmpget does;
  `Snmp.v` and `Ocsp.v` the two clients up to the octets they send; `OcspAnswer.v` what
  ocspclient does with the response (C57); `SnmpAnswer.v` what snmpget does with it (C60).
* C12, C26, C42, C43, C49: `Tools/`, on top of the PEM and codec models.  C49
  (`Tools/Formats.v`) takes the file formats from the standards and uses C45 and C48.
* C13–C20, C38: `Load/`. Each generated module is evaluated inside Coq
  (`vm_compute`); the import machine is an operational model with `sys.modules`;
  invariants by induction over the import history, facts about modules by
  computation over one table of evaluated modules (`Load/Computed.v`), lifted to
  every history (`Load/Session.v`).
* C21–C25, C27–C29, C33, C37, C39, C40, C44: generic theorems by induction over the
  type grammar; the side condition (`wf`, ...) is decidable and computed for all
  exported types (`Load/Checked.v`).
* C30–C32, C34–C36, C41, C45: `agrees` (Spec/Agree.v) is decidable; that it implies
  equality with X.690 is proved by induction over ASN.1 types (`Conform.v`,
  `Reads.v`); it is computed for all exported types (`Spec/Checked.v`).  Where the
  constraints differ, `looser` (Looser.v) decides whether the schema object accepts at
  least the RFC's values.
* C50: `Spec/Ber.v` says, from X.690 alone, when octets may be taken for an encoding of a
  value, with every liberty beyond the Recommendation marked; `Spec/Accepts.v` proves, by
  induction on the ASN.1 type, that the decoder given a schema object that agrees with the
  type accepts nothing else.
* C58: the converse, `Spec/Complete.v`, so that the decoder accepts exactly what Ber.v
  describes.  A CHOICE with further alternatives and a SEQUENCE with a constraint that is not
  checked would spoil it; both are decidable and computed for all types (`exactly` in
  Checked.v; exceptions `widening` in Deviations.v).
* C59: both directions are proved with a list of components left out (`Spec/Leaves.v`), so
  that they also hold of the deviating types, off what deviates.
* C61: `Spec/Own.v` puts the constraints of the schema object (in X.680's terms) in place of
  the RFC's; that the result agrees in its bounds with the schema object is computed for all
  types (`owned` in Checked.v), and C58 and C59 then apply to it.
* C62: `Spec/Meant.v` reads the ASN.1 type off a schema object; that it agrees with the object
  is computed for all exported objects (`spelt` in Checked.v).
* C53: `Asn1/Opening.v` relates what the two modes of the decoder return by an inductive
  relation over the type; both directions by induction on the opening depth and the type.
* C55: `Asn1/Widening.v` runs the decoders for two registries and the plain one on the same
  octets; C53 relates each to the plain one, which settles the governors, and acceptance with
  the larger registry carries over to the smaller by induction.
* C56: `Asn1/Reencode.v`; that an open component encodes what is registered for it as its
  octets is decidable and computed for all types and registrations (`Spec/Checked.v`).
* C54: `tools/tests2coq.py` extracts the decode calls of `/repo/tests` with their base64
  texts into `Gen/Vectors.v`; `Tools/SelfTest.v` runs them.  Sessions are replayed from the
  table of finished modules (`Load/Replay.v`, proved equal to executing the modules).
* C63: the same tool translates the test methods into programs of a small language
  (`Tools/TestLang.v`, `Gen/TestPrograms.v`); `Tools/TestRun.v` interprets it, with the
  operations on pyasn1 objects that the tests use (subscripts, iteration, comparison,
  membership, truth, `len`, `prettyPrint` of simple objects, `asOctets`, `getName`).  What is
  not modelled is `Stuck`, so that a passing test is one whose every step is modelled.
* C64: `Asn1/Nesting.v` bounds the levels of a decoded value by those of its type, by induction
  on the type, for any opener whose results are bounded; `shallow` in Load/Checked.v computes
  the bound for all types.  The values of `Load/Deep.v` conform by induction on their depth, so
  the open round trip (C37) applies; their lengths are bounded along the way, since an item of
  256^126 octets cannot be encoded.
* C48: `agrees_but sk` is `agrees` up to the components named in `sk` (absent, or explicit
  where only the default is wrong); `confined` in Spec/Deviations.v gives `sk` for 69 of the
  90 deviating types, and the implications of `agrees` are proved for `agrees_but` and the
  values that spare those components.
* C46, C47: the registrations and open components of all modules are compared with the
  tables of `Associations.v` and `Slots.v` in the same computation, and lifted to every
  session in `Registered.v`; what the decoder leaves in an open component is proved in
  `Asn1/Opened.v`.

`session h` is the state after the sequence `h` of `import` statements, any names,
any length; `schema W m x` the schema object that `m.x` (or `m.x()`) then is.

## Trusted base

* Coq 8.16.1: the kernel, with its virtual machine.  `Print Assumptions` under each
  theorem of `Props/` prints "Closed under the global context"; there are no axioms,
  neither our own nor of the standard library.
* `tools/py2coq.py`: translation of the module sources into the deep embedding.
* The semantics of Python (`Py/Eval.v`, `Load/Import.v`, `Pem/*`) and of pyasn1 0.4.8
  (not part of /repo, not available offline): written from knowledge of its source.
  C54 and C63 are evidence for it: 273 of the 282 test methods of the project, written
  against the real library, pass in the model with 2872 assertions.  `tools/tests2coq.py`
  translates them and lists the nine left out, seven of them only because the kernel takes
  minutes for their long integers; `Tools/TestRun.v` is trusted as far as C63 is concerned, and no other
  theorem uses it.
* `tools/scripts2coq.py` translates pem.py and twelve programs of tools/ into the syntax of
  `Tools/ScriptLang.v`, and `Tools/Script.v` gives it meaning (names, calls with keyword
  arguments, tuples, dicts, loops with break and else, try, assert, sys.stdin, print,
  sys.exit).  C65 and C66 prove that the models of `Pem/Pem.v` and `Tools/Programs.v`, which
  were written by hand, do what these sources do; the other theorems about pem.py and the
  dump tools thereby rest on the interpreter and not on the hand-written models.
  `Tools/ScriptSnmp.v` does the same for snmpget (C67), with the one object the program makes
  as state and its parts as paths, and `Tools/ScriptOcsp.v` for ocspclient (C68).
* Not decided: whether pyasn1.codec.cer.encoder has a BitStringEncoder, the base of a class in
  ocspclient.py.  C52 assumes it; C68 says what happens in either case.
* C69 reads the shape of the types of security categories off the loaded modules and says what
  they write.  ESSSecurityLabel with categories (rfc2634, rfc5035, rfc7906) stays outside C48 and C62.
* Not decided: whether pyasn1, given a schema, reads BOOLEAN, BIT STRING and OCTET STRING
  with the decoders of its BER codec (any contents but zeros are TRUE; strings in segments)
  or with the stricter ones of its CER and DER codecs.  It depends on how the typeMap of
  cer/decoder.py and der/decoder.py is filled.  `Asn1/Codec.v` makes it a parameter `lax`;
  every theorem about decoding begins `forall {Cdc : codec}` and holds of both.
* The transcriptions of X.680, X.690 and of the RFCs' ASN.1 modules: written from
  memory, before comparison with the code.  Where the two differed, the transcription
  was reconsidered, and kept or corrected on the merits; what stayed different is in
  `Deviations.v` and in `wrong_oids`.  For modules remembered badly the code was
  consulted while writing; the files say so (RFC 4357, 4490, 4491, 5275, 6664, 7191,
  and some arcs of `Oids.v`).  For these C34–C36 are weaker evidence: an error common to
  the code and the transcription is not seen.
* The tables `Associations.v` and `Slots.v` were prepared by going through the
  registrations and open types of /repo one by one and comparing each with what is
  remembered of its RFC; rows say what the RFC says.  `omitted` and `unopened` list what
  was noticed to be missing; they do not claim to be complete.

### Modelled

* Every statement of the 130 `rfc*.py` modules (assignments, class bodies,
  `from … import …`, the `_OID`/`_buildOid`/`_getClassDef` helpers, dict updates),
  evaluated by `Py/Eval.v`.  `Stuck` = outside the modelled fragment, `Raise` = a Python
  exception; C13 shows neither happens.
* `pem.py`, all functions.
* `tools/`: pkcs1dump, pkcs7dump, pkcs8dump, pkcs10dump, crldump, x509dump,
  x509dump-rfc5280, cmcdump, crmfdump, cmpdump, ocspreqdump, ocsprspdump: reading,
  decoding, encoding, comparing.  snmpget and ocspclient: up to the octets sent (the BER
  encoder only for types where it does what the DER encoder does; hashlib.sha1 is any
  function); ocspclient also from the octets of the response to the line printed.
* pyasn1: tag, constraint, named type, named value and type classes as far as the
  modules use them; the DER encoder and decoder for these types, including open types.

### Simplified

* Docstrings and comments are dropped; `__init__.py` (only `__version__`) is not modelled.
* Object identity is modelled for dicts (registries) and classes, other values are
  compared structurally.
* A cyclic import is `Stuck` instead of exposing a half-initialised module (shown never
  to happen).
* Python's recursion limit: the model decodes values of any depth (C64 says how deep they get).
* Construction-time errors of pyasn1 (constraint violation of a literal value, unknown
  component names, bad arguments) are modelled as `Raise` with a name.
* `Unm` results of the codec: what the model leaves open (decoding without a schema,
  values of a wrong Python type).  Theorems that conclude `Ok` or `Err` exclude it.

### Not modelled

* The text `prettyPrint` makes of a constructed object and the file names in usage messages (in
  C66 a printed line is the value and its type, or the format with its arguments); what
  `debug.setLogger` writes.
* In `tools/snmpget.py` and `tools/ocspclient.py`: the network (in C67 one datagram comes back); in snmpget a response with
  items of indefinite length.
* The BER/CER options of the codec (indefinite length, chunks, `omitEmptyOptionals=False`
  as in `tests/test_rfc2315.py:157`), and Python 2.
* Two test methods: `tests/test_rfc2315.py` testDerCodecDecodeOpenTypes
  (`omitEmptyOptionals=False`) and `tests/test_rfc3739.py` WithComponentsTestCase (encoding a
  Sequence without a value).  In C63 reading an alternative that is not chosen, which changes
  a Choice in pyasn1, is modelled only in `for v in w: if v['x'].hasValue(): …` with `v` and
  `w` not used afterwards (the translator checks this).
