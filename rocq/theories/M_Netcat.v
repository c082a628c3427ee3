(** Model of the console netcat/fastrpc-netcat3 (Python 3): how results are printed, what a line means, the loop over the lines,
    completion.  Not modelled: MySQL ([DbConn]), the module [fn], history, reading of the locale and of proxies, printing with a
    trailing * ([convert_frpc]), the times printed after a result. *)
From Verif Require Import Base Value Text M_BinUnmarshal M_Python M_PyDate.

Definition ustr (s : string) : pystr := map b2z (str s).
Definition udec (z : Z) : pystr := map b2z (dec_signed z).

(** ** Printing a result *)

(** [list.sort] of the keys of a [dict] (222-223): insertion sort; [None]: they cannot be compared (TypeError).  CPython's sort
    raises whenever two keys are of kinds that cannot be compared, as this one does.  Simplification: floats, tuples and other keys
    do not compare. *)
Fixpoint lex_less (a b : list Z) : bool :=
  match a, b with
  | _, [] => false
  | [], _ :: _ => true
  | x :: a, y :: b => (x <? y) || ((x =? y) && lex_less a b)
  end.
Definition key_less (a b : py) : option bool :=
  match a, b with
  | PyStr s, PyStr t => Some (lex_less s t)
  | PyBytes s, PyBytes t => Some (lex_less (map b2z s) (map b2z t))
  | PyInt x, PyInt y => Some (x <? y)
  | _, _ => None
  end.
Fixpoint insert_key {A} (x : py * A) (l : list (py * A)) : option (list (py * A)) :=
  match l with
  | [] => Some [x]
  | y :: r => match key_less (fst x) (fst y) with
              | None => None
              | Some true => Some (x :: y :: r)
              | Some false => option_map (cons y) (insert_key x r)
              end
  end.
Fixpoint sort_keys {A} (l : list (py * A)) : option (list (py * A)) :=
  match l with
  | [] => Some []
  | x :: r => match sort_keys r with Some r => insert_key x r | None => None end
  end.

Section Out.
  (** [sys.AUTOSORT]; the text of floats, [bytes], [datetime.datetime] and of objects that have no case of their own. *)
  Variable autosort : bool.
  Variable float_text : Z -> pystr.
  Variable bytes_text : bytes -> pystr.
  Variable std_text : datetime -> pystr.
  Variable other_text : py -> pystr.

  (** [_type] (182-211).  A [bool] is an [int].  Simplification: no other object is a [datetime.date], a [datetime.time] or a
      [decimal.Decimal]. *)
  Definition type_of (v : py) : pystr :=
    match v with
    | PyBool _ | PyInt _ => ustr "int"
    | PyBytes _ | PyStr _ => ustr "string"
    | PyFloat _ => ustr "float"
    | PyDict _ => ustr "struct"
    | PyList _ => ustr "array"
    | PyDate _ => ustr "datetime"
    | PyBoolean _ => ustr "boolean"
    | PyStdDate _ => ustr "datetime"
    | PyNone => []
    | PyTuple _ | PyFault _ _ | PyOther => ustr "???"
    end.

  (** [_type(v)], a space if it is not empty (225-233, 294-301, 335-339). *)
  Definition tagged (v : py) : pystr := match v with PyNone => [] | _ => type_of v ++ ustr " " end.

  (** ["{}".format] of a key. *)
  Definition key_text (k : py) : pystr :=
    match k with
    | PyStr u => u
    | PyBytes s => bytes_text s
    | PyInt z => udec z
    | PyBool b => if b then ustr "True" else ustr "False"
    | PyFloat d => float_text d
    | PyNone => ustr "None"
    | v => other_text v
    end.

  (** The text of a date (251-259). *)
  Definition date_out (d : datetime) : pystr :=
    udec (dt_day d) ++ ustr "." ++ udec (dt_month d) ++ ustr "." ++ udec (dt_year d) ++ ustr " " ++
    udec (dt_hour d) ++ ustr ":" ++ udec (dt_min d) ++ ustr ":" ++ udec (dt_sec d) ++ ustr " " ++
    (if 0 <=? dt_tz d then ustr "+" else ustr "-") ++ udec (dt_tz d * 100) ++ ustr " (" ++
    match date_text d with PyStr u => u | _ => [] end ++ ustr ")".

  (** [_write_out] (214-286), [write_out_list] (289-304).  [None]: TypeError.  [None] put to a format is "None". *)
  Fixpoint write (v : py) (ind : pystr) : option pystr :=
    let deeper := ind ++ ustr "    " in
    let items :=
      fix items (i : Z) (l : list py) : option pystr :=
        match l with
        | [] => Some []
        | x :: r =>
            match write x deeper with
            | Some t =>
                match items (i + 1) r with
                | Some u => Some (deeper ++ ustr "[" ++ udec i ++ ustr "] " ++ tagged x ++ ustr "= " ++ t ++ 10 :: u)
                | None => None
                end
            | None => None
            end
        end in
    let members :=
      fix members (m : list (py * py)) : option (list (py * pystr)) :=
        match m with
        | [] => Some []
        | (k, x) :: r =>
            match write x deeper with
            | Some t =>
                match members r with
                | Some l => Some ((k, deeper ++ tagged x ++ key_text k ++ ustr " = " ++ t ++ [10]) :: l)
                | None => None
                end
            | None => None
            end
        end in
    match v with
    | PyBool b | PyBoolean b => Some (if b then ustr "True" else ustr "False")
    | PyInt z => Some (udec z)
    | PyBytes s => Some (34 :: bytes_text s ++ [34])
    | PyStr u => Some (34 :: u ++ [34])
    | PyFloat d => Some (float_text d)
    | PyDict m =>
        match members m with
        | Some l =>
            match (if autosort then sort_keys l else Some l) with
            | Some l => Some (123 :: 10 :: concat (map snd l) ++ ind ++ [125])
            | None => None
            end
        | None => None
        end
    | PyList l => match items 0 l with Some t => Some (40 :: 10 :: t ++ ind ++ [41]) | None => None end
    | PyDate d => Some (date_out d)
    | PyStdDate d => Some (std_text d)
    | PyNone => Some (ustr "None")
    | PyTuple _ | PyFault _ _ | PyOther => Some (ustr "UNKNOWN TYPE " ++ other_text v)
    end.

  (** [write_out] (334-339): what is printed. *)
  Definition write_out (v : py) : option pystr :=
    match write v [] with Some t => Some (ustr "result = " ++ tagged v ++ t ++ [10]) | None => None end.
End Out.

(** ** What a line means *)

Definition ueqb : pystr -> pystr -> bool := pystr_eqb.
(** [str.strip(' ')]. *)
Fixpoint lstrip (s : pystr) : pystr := match s with c :: r => if c =? 32 then lstrip r else s | [] => [] end.
Definition strip (s : pystr) : pystr := rev (lstrip (rev (lstrip s))).
(** [str.split(c)] of a character. *)
Fixpoint split_on (c : Z) (s : pystr) : list pystr :=
  match s with
  | [] => [[]]
  | x :: r => if x =? c then [] :: split_on c r
              else match split_on c r with w :: l => (x :: w) :: l | [] => [[x]] end
  end.
Definition has_char (c : Z) (s : pystr) : bool := existsb (Z.eqb c) s.
Fixpoint has_text (p s : pystr) : bool :=
  ueqb p (firstn (length p) s) || match s with [] => false | _ :: r => has_text p r end.
(** What stands before the first [c]. *)
Fixpoint before (c : Z) (s : pystr) : pystr := match s with [] => [] | x :: r => if x =? c then [] else x :: before c r end.

Inductive action : Type :=
| A_nothing
| A_exit (code : option pystr)
| A_license
| A_connect (name : option pystr) (server : pystr)
| A_connect_db (name : option pystr) (host db user password : pystr)
| A_bad_connect
| A_charset (c : pystr)
| A_name (n : pystr)
| A_autocommit (on : option bool)
| A_autosort (on : option bool)
| A_timeout (ms : option Z)
| A_import (m : option pystr)
| A_shell (run : bool)
| A_exec (args : list pystr)
| A_help
| A_help_on (python : bool) (what : pystr)
| A_help_none
| A_run (code : pystr)
| A_eval (star : bool) (code : pystr).

Section Line.
  (** [int] of a text. *)
  Variable py_int : pystr -> option Z.

  (** The address of a server (414-427, 601-624). *)
  Definition address (host : pystr) (port : pystr) : pystr :=
    let server := if has_char 47 host then host
                  else (if ueqb host (ustr "0") then ustr "127.0.0.1" else host) ++ ustr ":" ++ port ++ ustr "/RPC2" in
    if has_text (ustr "://") server then server else ustr "http://" ++ server.

  (** The branch [connect] (582-664). *)
  Definition connect (db : bool) (w : list pystr) : action :=
    if Z.of_nat (length w) <? 2 then A_bad_connect
    else
      let num := match nth_error w 2 with Some p => match py_int p with Some _ => true | None => false end | None => false end in
      let '(name, w) := if (3 <? Z.of_nat (length w)) || ((Z.of_nat (length w) =? 3) && negb num) then (Some (nth 1 w []), tl w) else (None, w) in
      let host := nth 1 w [] in
      if has_char 47 host then if db then A_bad_connect else A_connect name (address host [])
      else if db && ((Z.of_nat (length w) =? 4) || (Z.of_nat (length w) =? 5)) then
        A_connect_db name (if ueqb host (ustr "0") then ustr "127.0.0.1" else host) (nth 2 w []) (nth 3 w [])
          (if Z.of_nat (length w) =? 5 then nth 4 w [] else [])
      else if db then A_bad_connect
      else A_connect name (address host (if Z.of_nat (length w) =? 3 then nth 2 w [] else ustr "80")).

  (** 1|on|true|0|off|false (717-730). *)
  Definition switch (s : pystr) : option bool :=
    if existsb (ueqb s) [ustr "1"; ustr "on"; ustr "true"] then Some true
    else if existsb (ueqb s) [ustr "0"; ustr "off"; ustr "false"] then Some false
    else None.

  (** What a line does (543-579, and the branches to 873).  Simplification: pymysql is installed (572-573). *)
  Definition command (line : pystr) : action :=
    let cmd := strip (filter (fun c => negb ((c =? 10) || (c =? 13))) line) in
    let w := split_on 32 cmd in
    let '(cmd, w) :=
      if (1 <? Z.of_nat (length w)) && existsb (ueqb (last w [])) [ustr "-h"; ustr "--help"] then
        let c := before 40 (hd [] w) in (ustr "? " ++ c, [ustr "?"; c])
      else (cmd, w) in
    let n := Z.of_nat (length w) in
    let db := ueqb (hd [] w) (ustr "connectdb") in
    let first := if db then ustr "connect" else hd [] w in
    let is s := ueqb first (ustr s) in
    if match first with 35 :: _ => true | _ => false end then A_nothing
    else if ueqb cmd (ustr "exit") || ueqb cmd (ustr "quit") then A_exit (if n =? 2 then Some (nth 1 w []) else None)
    else if is "license"%string then A_license
    else if is "connect"%string then connect db w
    else if is "charset"%string && (n =? 2) then A_charset (nth 1 w [])
    else if is "name"%string && (n =? 2) then A_name (nth 1 w [])
    else if is "autocommit"%string && (n =? 2) then A_autocommit (switch (nth 1 w []))
    else if is "autosort"%string && (n =? 2) then A_autosort (switch (nth 1 w []))
    else if is "timeout"%string && (n =? 2) then A_timeout (option_map (Z.mul 1000) (py_int (nth 1 w [])))
    else if is "import"%string then A_import (if n =? 2 then Some (nth 1 w []) else None)
    else if is "shell"%string then A_shell (n =? 1)
    else if is "exec"%string then if 2 <=? n then A_exec (tl w) else A_nothing
    else if is "?"%string || is "??"%string || is "help"%string then
      if n =? 1 then A_help else if n =? 2 then A_help_on (is "??"%string) (nth 1 w []) else A_help_none
    else
      match cmd with
      | [] => A_nothing
      | _ =>
          let star := last cmd 0 =? 42 in
          let cmd := if star then removelast cmd else cmd in
          match cmd with
          | [] => A_nothing
          | 33 :: code => A_run code
          | _ => A_eval star cmd
          end
      end.
End Line.

(** ** The loop (532-893) *)

(** What comes from the user: a line, Ctrl+C at the prompt.  After the last one the input ends. *)
Inductive input : Type := I_line (l : pystr) | I_interrupt.
(** How a command ends: without an exception, with one, with [KeyboardInterrupt], with [EOFError],
    with [SystemExit] of a status. *)
Inductive ends : Type := E_fine | E_fails | E_interrupt | E_eof | E_exit (status : Z).

Section Loop.
  Variable world : Type.
  Variable py_int : pystr -> option Z.
  (** The effect of the actions that leave the console; of [exec] and [shell] the status is only printed (758-765). *)
  Variable perform : action -> world -> world * ends.
  Variable spawn : list pystr -> world -> world * Z.

  Definition act (tty : bool) (a : action) (w : world) : world * ends :=
    match a with
    | A_exec args => (fst (spawn args w), E_fine)
    | A_shell true => (fst (spawn [ustr "/bin/bash"] w), E_fine)
    | A_nothing | A_license | A_help | A_help_none | A_shell false | A_import None => (w, E_fine)
    | A_autocommit None | A_autosort None | A_timeout None => (w, if tty then E_fine else E_fails)
    | A_bad_connect => (w, E_fails)
    | _ => perform a w
    end.

  (** The status the process ends with: [exit(-1)] is 255.  [again]: Ctrl+C has just been pressed.  Simplification: at a terminal,
      a command that ends by Ctrl+C counts as the first of two. *)
  Fixpoint console (tty again : bool) (l : list input) (w : world) : world * Z :=
    match l with
    | [] => (w, 0)
    | I_interrupt :: r => if tty then if again then (w, 0) else console tty true r w else (w, 255)
    | I_line line :: r =>
        match command py_int line with
        | A_exit None => (w, 0)
        | A_exit (Some c) => match py_int c with Some z => (w, z mod 256) | None => if tty then console tty false r w else (w, 255) end
        | a =>
            let '(w, e) := act tty a w in
            match e with
            | E_fine => console tty false r w
            | E_fails => if tty then console tty false r w else (w, 255)
            | E_interrupt => if tty then console tty true r w else (w, 255)
            | E_eof => (w, 0)
            | E_exit z => (w, z mod 256)
            end
        end
    end.
End Loop.

(** ** Completion *)

(** [Completer] (164-184): the words known, those found last; [complete(text, state)] of a state from 0 on. *)
Definition found (words : list pystr) (text : pystr) : list pystr :=
  filter (fun w => ueqb (firstn (length text) w) text) words.
Definition complete (words : list pystr) (last : list pystr) (text : pystr) (state : nat) : list pystr * option pystr :=
  let last := match state with O => found words text | _ => last end in (last, nth_error last state).
(** The words for a client: the methods it lists that are no system methods (463-465, 684-686). *)
Definition method_words (client : pystr) (methods : list pystr) : list pystr :=
  map (fun m => client ++ 46 :: m) (filter (fun m => negb (ueqb (before 46 m) (ustr "system"))) methods).
