(** Model of pyasn1_modules/pem.py (Python 3 branch). *)
From Coq Require Import List NArith ZArith Bool Lia.
From Verif Require Import Pem.Text Pem.Base64.
Import ListNotations.

(** pyasn1_modules/pem.py:10 *)
Inductive pem_state := stSpam | stHam | stDump.

(** The returned substrate: pem.py:21 initialises it to the empty text [''],
    pem.py:44 replaces it by bytes. *)
Inductive substrate := NoText | Bytes (b : bytes).

(** Python truth value of the substrate ([if not substrate], tools). *)
Definition truthy (s : substrate) : bool :=
  match s with Bytes (_ :: _) => true | _ => false end.

(** The octets in the substrate. *)
Definition octets (s : substrate) : bytes :=
  match s with NoText => [] | Bytes b => b end.

Definition markers := list (text * text).

(** Python dict from text to int: lookup in a list of items, later items
    override earlier ones (dict constructor, pem.py:16-19). *)
Fixpoint dict_get (items : list (text * Z)) (k : text) : option Z :=
  match items with
  | [] => None
  | (k', v) :: items' =>
      match dict_get items' k with
      | Some v' => Some v'
      | None => if text_eqb k k' then Some v else None
      end
  end.

(** enumerate with swapped pairs, pem.py:16-19. *)
Fixpoint enum_swap (n : Z) (l : list text) : list (text * Z) :=
  match l with [] => [] | x :: l' => (x, n) :: enum_swap (n + 1) l' end.

(** pem.py:16-17 *)
Definition startMarkers (m : markers) : list (text * Z) := enum_swap 0 (map fst m).
(** pem.py:18-19 *)
Definition stopMarkers (m : markers) : list (text * Z) := enum_swap 0 (map snd m).

(** pem.py:44, the list comprehension: decode line by line, first failure wins. *)
Fixpoint decode_lines (ls : list text) : res (list bytes) :=
  match ls with
  | [] => Ok []
  | l :: ls' =>
      match b64decode l with
      | Err e => Err e
      | Ok b => match decode_lines ls' with Err e => Err e | Ok bs => Ok (b :: bs) end
      end
  end.

(** Local variables of pem.py:20-23. *)
Record locals := mkL { idx : Z; certLines : list text; state : pem_state }.

(** What one iteration of the loop body does: continue, or leave the loop with
    a result (pem.py:29-45). *)
Inductive step := Continue (l : locals) | Leave (r : res (Z * substrate)).

(** pem.py:28-45, one iteration on a line that was read (not yet stripped). *)
Definition body (m : markers) (line : text) (st : locals) : step :=
  let certLine := strip line in
  let after_ham (st : locals) : step :=                              (* pem.py:35-45 *)
    let st :=
      match state st with
      | stHam =>
          if match dict_get (stopMarkers m) certLine with
             | Some j => Z.eqb j (idx st) | None => false end
          then mkL (idx st) (certLines st) stDump                      (* pem.py:36-37 *)
          else mkL (idx st) (certLines st ++ [certLine]) (state st)    (* pem.py:38-39 *)
      | _ => st
      end in
    match state st with
    | stDump =>                                                        (* pem.py:40-45 *)
        match decode_lines (certLines st) with
        | Ok bs => Leave (Ok (idx st, Bytes (concat bs)))
        | Err e => Leave (Err e)
        end
    | _ => Continue st
    end in
  match state st with
  | stSpam =>                                                          (* pem.py:29-34 *)
      match dict_get (startMarkers m) certLine with
      | Some i => Continue (mkL i [] stHam)
      | None => after_ham st
      end
  | _ => after_ham st
  end.

(** pem.py:24-46.  The fuel bounds the number of [readline] calls; [None] =
    fuel exhausted, excluded by theorem [loop_fuel]. *)
Fixpoint loop (fuel : nat) (m : markers) (st : locals) (f : text)
  : option (res (Z * substrate) * text) :=
  match fuel with
  | O => None
  | S fuel' =>
      let (line, f') := readline f in
      match line with
      | [] => Some (Ok (idx st, NoText), f')                           (* pem.py:26-27, 46 *)
      | _ => match body m line st with
             | Continue st' => loop fuel' m st' f'
             | Leave r => Some (r, f')
             end
      end
  end.

(** pem.py:15-46: result (or exception) and the file left behind.  One
    [readline] per character plus one always suffices ([loop_fuel]). *)
Definition readPemBlocksFromFile (m : markers) (f : text) : res (Z * substrate) * text :=
  match loop (S (length f)) m (mkL (-1) [] stSpam) f with
  | Some r => r
  | None => (Ok ((-1)%Z, NoText), f)
  end.

(** pem.py:50-54 *)
Definition readPemFromFile (startMarker endMarker : text) (f : text) : res substrate * text :=
  match readPemBlocksFromFile [(startMarker, endMarker)] f with
  | (Ok (_, s), f') => (Ok s, f')
  | (Err e, f') => (Err e, f')
  end.

(** pem.py:57-61 *)
Definition readBase64fromText (t : text) : res bytes := b64decode t.

(** pem.py:64-65: reads the whole file, then decodes. *)
Definition readBase64FromFile (f : text) : res bytes * text := (readBase64fromText f, []).

(** * Specification vocabulary (independent of the model above) *)

(** The lines of a file: each ends with its line feed, except possibly the last. *)
Inductive lines_of : list text -> text -> Prop :=
| lines_nil : lines_of [] []
| lines_last l : l <> [] -> ~ In LF l -> lines_of [l] l
| lines_cons l ls f : ~ In LF l -> lines_of ls f -> lines_of ((l ++ [LF]) :: ls) (l ++ LF :: f).

(** [s] is the start (stop) text of pair number [i] and of no later pair. *)
Definition opens (m : markers) (s : text) (i : nat) : Prop :=
  (exists e, nth_error m i = Some (s, e)) /\
  forall j s' e', (i < j)%nat -> nth_error m j = Some (s', e') -> s' <> s.
Definition closes (m : markers) (e : text) (i : nat) : Prop :=
  (exists s, nth_error m i = Some (s, e)) /\
  forall j s' e', (i < j)%nat -> nth_error m j = Some (s', e') -> e' <> e.
Definition is_start (m : markers) (s : text) : Prop := exists e, In (s, e) m.

(** Decoding lines one at a time: all succeed, or the first failure is raised. *)
Inductive decoded : list text -> res bytes -> Prop :=
| dec_nil : decoded [] (Ok [])
| dec_ok l ls b bs : b64decode l = Ok b -> decoded ls (Ok bs) -> decoded (l :: ls) (Ok (b ++ bs))
| dec_err l ls b e : b64decode l = Ok b -> decoded ls (Err e) -> decoded (l :: ls) (Err e)
| dec_here l ls e : b64decode l = Err e -> decoded (l :: ls) (Err e).

(** What [readPemBlocksFromFile] must do on the lines of a file:
    result (index, data | exception) and number-free description of what is left. *)
Inductive pem_spec (m : markers) : list text -> res (Z * substrate) -> list text -> Prop :=
| spec_nostart ls :
    Forall (fun l => ~ is_start m (strip l)) ls ->
    pem_spec m ls (Ok ((-1)%Z, NoText)) []
| spec_truncated pre s bdy i :
    Forall (fun l => ~ is_start m (strip l)) pre ->
    opens m (strip s) i ->
    Forall (fun l => ~ closes m (strip l) i) bdy ->
    pem_spec m (pre ++ s :: bdy) (Ok (Z.of_nat i, NoText)) []
| spec_block pre s bdy e rest i d :
    Forall (fun l => ~ is_start m (strip l)) pre ->
    opens m (strip s) i ->
    Forall (fun l => ~ closes m (strip l) i) bdy ->
    closes m (strip e) i ->
    decoded (map strip bdy) d ->
    pem_spec m (pre ++ s :: bdy ++ e :: rest)
             (match d with Ok b => Ok (Z.of_nat i, Bytes b) | Err x => Err x end) rest.

(** Wrapping a text at width [w], as armour writers do: full lines, then a
    non-empty last line of at most [w] characters. *)
Inductive wrapped (w : nat) : text -> list text -> Prop :=
| wrap_nil : wrapped w [] []
| wrap_last t : t <> [] -> (length t <= w)%nat -> wrapped w t [t]
| wrap_cons l t ls : length l = w -> t <> [] -> wrapped w t ls -> wrapped w (l ++ t) (l :: ls).

(** A file made of terminated lines. *)
Definition unlines (ls : list text) : text := concat (map (fun l => l ++ [LF]) ls).

(** A marker usable on a line of its own: no line feed, no surrounding white
    space, and at least one character outside the base64 alphabet. *)
Definition good_marker (t : text) : Prop :=
  ~ In LF t /\ strip t = t /\ exists c, In c t /\ relevant c = false.
