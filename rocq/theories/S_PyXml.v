(** Specification: what of Python's objects XML can carry. *)
From Verif Require Import Base Value Unicode M_Xml M_XmlUm S_Iso S_Xml M_Python S_Python.

(** Characters of XML (XML 1.0, 2.2) that arrive as they are: no carriage return. *)
Definition xml_char (c : Z) : Prop := c = 9 \/ c = 10 \/ 32 <= c <= 55295 \/ 57344 <= c <= 65533 \/ 65536 <= c <= 1114111.
Definition xml_str (u : pystr) : Prop := Forall xml_char u.

(** Objects XML has: integers of 64 bits but the smallest, floats that survive being printed, strings of such characters, dates of four digits, [dict]s
    whose keys are names of 1 to 255 bytes. *)
Section Has.
  Variable double_ok : Z -> Prop.
  Fixpoint xml_has (p : py) : Prop :=
    match p with
    | PyNone | PyBool _ | PyBoolean _ | PyBytes _ => True
    | PyInt z => - 2 ^ 63 < z < 2 ^ 63
    | PyFloat d => double_ok d
    | PyStr u => xml_str u
    | PyDate d => iso_range d
    | PyList l | PyTuple l =>
        zlen l < 2 ^ 32 /\ (fix all (l : list py) : Prop := match l with [] => True | x :: r => xml_has x /\ all r end) l
    | PyDict m =>
        zlen m < 2 ^ 32 /\
        (fix all (l : list (py * py)) : Prop :=
           match l with [] => True | (k, x) :: r => (exists u, k = PyStr u /\ xml_str u /\ name_fits u) /\ xml_has x /\ all r end) m
    | PyStdDate _ | PyFault _ _ | PyOther => False
    end.
End Has.

(** The dates in it without the day of the week and the time. *)
Fixpoint undated (p : py) : py :=
  match p with
  | PyDate d => PyDate (iso_fields d)
  | PyList l => PyList (map undated l)
  | PyTuple l => PyTuple (map undated l)
  | PyDict m => PyDict (map (fun kv => (fst kv, undated (snd kv))) m)
  | x => x
  end.

(** A parser given a whole document at once reports it at once. *)
Definition prompt (P : parser) : Prop :=
  forall text doc, xml_doc text = Some doc -> exists s batch, ps_take P (ps_init P) text = (s, batch, 0) /\ sax_join batch = sax_join doc.
