(** Model of [dumpTree] of the Python module for Python 3 (python/fastrpcmodule.cc 2587-2789). *)
From Verif Require Import Base Value Text M_Marshal M_BinUnmarshal M_TreeBuilder M_Dump M_Python M_PyClient M_PyDate.

Section Dump.
  (** A [double] put to a stream; [PyObject_Repr] ([None]: it raises an exception) and [tp_name] of an object of another type; [str] of
      [bytes] (2761; it raises an exception if Python is run with -bb). *)
  Variable show : Z -> bytes.
  Variable repr : py -> option pystr.
  Variable type_name : py -> bytes.
  Variable bytes_text : bytes -> option pystr.
  (** The argument [names], if it is given.  Simplification: of an object of another class nothing is found in it. *)
  Variable names : option py.

  (** [printString] (2587-2620): what is put, and whether it succeeds; if not, an exception is pending. *)
  Definition print_string (u : pystr) (prefix suffix err : bytes) (limit : Z) : bytes * bool :=
    match py_encode u with
    | None => (err, false)
    | Some s => (prefix ++ (if (limit <? 0) || (blen s <? limit) then s else ztake limit s ++ str "...") ++ suffix, true)
    end.

  (** [PyMapping_HasKeyString] (CPython) of the key of a member (2713-2724). *)
  Definition key_name (k : py) : bytes := match k with PyStr u => match py_encode u with Some s => c_string s | None => [] end | _ => [] end.
  Definition has_name (k : py) : bool :=
    match names with
    | Some (PyDict m) =>
        match py_decode false (key_name k) with
        | Some u => existsb (fun kv => match fst kv with PyStr s => pystr_eqb s u | _ => false end) m
        | None => false
        end
    | _ => false
    end.

  (** [printPyFastRPCTree] (2622-2770): what is put, whether it returns 0, and whether an exception is pending afterwards;
      [pending]: before.  [PyMapping_HasKeyString] clears it if it finds nothing. *)
  Fixpoint dump (level pos : Z) (v : py) (pending : bool) : bytes * bool * bool :=
    let text (x : bytes * bool) := (fst x, snd x, pending || negb (snd x)) in
    let items :=
      fix items (i : Z) (l : list py) (p : bool) : bytes * bool * bool :=
        match l with
        | [] => ([], true, p)
        | x :: r =>
            let sep := if i =? 0 then [] else str ", " in
            if (i <? 64) && Z.testbit pos i then
              let '(t, ok, p) := items (i + 1) r p in (sep ++ str "-hidden-" ++ t, ok, p)
            else
              let '(t, ok, p) := dump (level - 1) 0 x p in
              if ok then let '(t2, ok, p) := items (i + 1) r p in (sep ++ t ++ t2, ok, p) else (sep ++ t, false, p)
        end in
    let members :=
      fix members (other : bool) (m : list (py * py)) (p : bool) : bytes * bool * bool :=
        match m with
        | [] => ([], true, p)
        | (k, x) :: r =>
            let sep := if other then str ", " else [] in
            let '(tk, ok, p) := dump (level - 1) 0 k p in
            if ok then
              let start := sep ++ tk ++ str ": " in
              if has_name k then let '(t, ok, p) := members true r p in (start ++ str "-hidden-" ++ t, ok, p)
              else
                let '(tv, ok, p) := dump (level - 1) 0 x false in
                if ok then let '(t, ok, p) := members true r p in (start ++ tv ++ t, ok, p) else (start ++ tv, false, p)
            else (sep, false, p)
        end in
    match v with
    | PyBool b | PyBoolean b => (if b then str "true" else str "false", true, pending)
    | PyInt z => if (- 2 ^ 63 <=? z) && (z <? 2 ^ 63) then if pending then ([], false, true) else (dec_signed z, true, false) else ([], false, true)
    | PyFloat d => (show d, true, pending)
    | PyStr u => text (print_string u [x22] [x22] (str "<STRING>") 10)
    | PyList l | PyTuple l =>
        if level =? 0 then (str "(...)", true, pending)
        else let '(t, ok, p) := items 0 l pending in (x28 :: t ++ (if ok then [x29] else []), ok, p)
    | PyDict m =>
        if level =? 0 then (str "{...}", true, pending)
        else let '(t, ok, p) := members false m pending in (x7b :: t ++ (if ok then [x7d] else []), ok, p)
    | PyDate d => text (print_string (match date_text d with PyStr u => u | _ => [] end) [] [] (str "<DATETIME>") (-1))
    | PyBytes s =>
        match bytes_text s with
        | None => ([], false, true)
        | Some u => text (print_string u [] [] (str "<BASE64>") 10)
        end
    | PyNone | PyStdDate _ | PyFault _ _ | PyOther =>
        match repr v with
        | Some u => text (print_string u [] [] [] (-1))
        | None => (x3c :: type_name v ++ [x3e], true, true)
        end
    end.

  (** [fastrpc_dumpTree] (2773-2789): the result of printing is not looked at; a result returned while an exception is pending
      becomes a SystemError (CPython). *)
  Definition dump_tree (level pos : Z) (v : py) : pyres py :=
    let '(t, _, pending) := dump level pos v false in
    match py_decode false t with
    | None => PyRaise PE_Decode
    | Some u => if pending then PyRaise PE_System else PyOk (PyStr u)
    end.
End Dump.
