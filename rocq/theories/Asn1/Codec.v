(** The one thing left open about the codec. *)

(** Which decoder reads a BOOLEAN, a BIT STRING or an OCTET STRING when a schema is given?
    pyasn1/codec/cer/decoder.py and der/decoder.py have stricter ones than ber/decoder.py and
    put them into tagMap, which is used without a schema; with one, typeMap is used, a copy of
    ber/decoder.py's, into which they only get where the copy has no entry.  pyasn1 is not part
    of /repo, and its versions may differ in this: with [lax] the decoders of ber/decoder.py are
    the ones that count, and without it the stricter ones.  Everything here holds of both. *)
Class codec := lax : bool.
