(** What a user of the console relies on (C113-C116). *)
From Coq Require Import Permutation Sorted.
From Verif Require Import Base Value Text M_Python M_Netcat.

(** ** Results *)

(** Two results tell the user the same: equal, but for the order of members and what the fields of a date follow from. *)
Inductive same_result : py -> py -> Prop :=
| same_none : same_result PyNone PyNone
| same_bool : forall b, same_result (PyBool b) (PyBool b)
| same_int : forall z, same_result (PyInt z) (PyInt z)
| same_float : forall d, same_result (PyFloat d) (PyFloat d)
| same_str : forall s, same_result (PyStr s) (PyStr s)
| same_date : forall d e, dt_year d = dt_year e -> dt_month d = dt_month e -> dt_day d = dt_day e -> dt_hour d = dt_hour e ->
    dt_min d = dt_min e -> dt_sec d = dt_sec e -> dt_tz d = dt_tz e -> same_result (PyDate d) (PyDate e)
| same_list : forall l l', Forall2 same_result l l' -> same_result (PyList l) (PyList l')
| same_dict : forall m m' m2, Permutation m m' -> Forall2 (fun a b => fst a = fst b /\ same_result (snd a) (snd b)) m' m2 ->
    same_result (PyDict m) (PyDict m2).

(** Names of members as they are usual: no space, no line feed, not "=". *)
Definition usual_name (k : list Z) : Prop := Forall (fun c => c <> 32 /\ c <> 10) k /\ k <> [61].

(** A not-a-number has many bit patterns. *)
Definition a_number (bits : Z) : Prop := ~ ((bits / 2 ^ 52) mod 2048 = 2047 /\ bits mod 2 ^ 52 <> 0).

(** Results whose print can be read: texts without quotes, usual names; what a response of the server can consist of, but
    for binary data. *)
Inductive readable : py -> Prop :=
| rd_none : readable PyNone
| rd_bool : forall b, readable (PyBool b)
| rd_int : forall z, readable (PyInt z)
| rd_float : forall d, a_number d -> readable (PyFloat d)
| rd_str : forall s, ~ In 34 s -> readable (PyStr s)
| rd_date : forall d, readable (PyDate d)
| rd_list : forall l, Forall readable l -> readable (PyList l)
| rd_dict : forall m, Forall (fun kv => (exists k, fst kv = PyStr k /\ usual_name k) /\ readable (snd kv)) m -> readable (PyDict m).

(** Results whose members have texts as names, each once per struct. *)
Inductive named : py -> Prop :=
| nm_atom : forall v, match v with PyList _ | PyDict _ => False | _ => True end -> named v
| nm_list : forall l, Forall named l -> named (PyList l)
| nm_dict : forall m, Forall (fun kv => (exists k, fst kv = PyStr k) /\ named (snd kv)) m -> NoDup (map fst m) -> named (PyDict m).

(** Equal but for the order of members. *)
Inductive reordered : py -> py -> Prop :=
| ro_same : forall v, reordered v v
| ro_list : forall l l', Forall2 reordered l l' -> reordered (PyList l) (PyList l')
| ro_dict : forall m m' m2, Permutation m m' -> Forall2 (fun a b => fst a = fst b /\ reordered (snd a) (snd b)) m' m2 ->
    reordered (PyDict m) (PyDict m2).

(** What prints floats: texts without line feeds, of each number its own. *)
Definition prints_floats (f : Z -> pystr) : Prop :=
  (forall d, ~ In 10 (f d)) /\ forall d e, a_number d -> a_number e -> f d = f e -> d = e.

(** ** Lines *)

(** A word the user types: not empty, no space, no end of a line.  [plain]: it does not ask for help at the end of a line. *)
Definition word (w : pystr) : Prop := w <> [] /\ Forall (fun c => c <> 32 /\ c <> 10 /\ c <> 13) w.
Definition plain (w : pystr) : Prop := word w /\ w <> ustr "-h" /\ w <> ustr "--help".
(** A line of words, a space between two. *)
Fixpoint line_of (l : list pystr) : pystr := match l with [] => [] | [w] => w | w :: r => w ++ 32 :: line_of r end.

(** [int]: decimal numbers are read; what contains a slash is none. *)
Definition reads_numbers (f : pystr -> option Z) : Prop := (forall z, f (udec z) = Some z) /\ forall s, In 47 s -> f s = None.

(** The words a line of another meaning does not begin with. *)
Definition keywords : list pystr :=
  map ustr ["exit"; "quit"; "license"; "connect"; "connectdb"; "charset"; "name"; "autocommit"; "autosort"; "timeout"; "import"; "shell";
            "exec"; "?"; "??"; "help"]%string.

(** What the help text (767-822) says of the commands other than [timeout] and [exit] with a result. *)
Inductive documented : list pystr -> action -> Prop :=
| doc_connect : forall host port, word host -> ~ In 47 host -> host <> ustr "0" ->
    documented [ustr "connect"; host; udec port] (A_connect None (ustr "http://" ++ host ++ ustr ":" ++ udec port ++ ustr "/RPC2"))
| doc_connect_name : forall name host port, word name -> word host -> ~ In 47 host -> host <> ustr "0" ->
    documented [ustr "connect"; name; host; udec port] (A_connect (Some name) (ustr "http://" ++ host ++ ustr ":" ++ udec port ++ ustr "/RPC2"))
| doc_connect_url : forall rest, word (ustr "http://" ++ rest) ->
    documented [ustr "connect"; ustr "http://" ++ rest] (A_connect None (ustr "http://" ++ rest))
| doc_connect_name_url : forall name rest, word name -> word (ustr "http://" ++ rest) ->
    documented [ustr "connect"; name; ustr "http://" ++ rest] (A_connect (Some name) (ustr "http://" ++ rest))
| doc_connectdb : forall name host db user, word name -> word host -> ~ In 47 host -> host <> ustr "0" -> word db -> plain user ->
    documented [ustr "connectdb"; name; host; db; user] (A_connect_db (Some name) host db user [])
| doc_connectdb_password : forall name host db user pw, word name -> word host -> ~ In 47 host -> host <> ustr "0" -> word db -> word user -> plain pw ->
    documented [ustr "connectdb"; name; host; db; user; pw] (A_connect_db (Some name) host db user pw)
| doc_charset : forall c, plain c -> documented [ustr "charset"; c] (A_charset c)
| doc_name : forall n, plain n -> documented [ustr "name"; n] (A_name n)
| doc_autocommit_on : forall s, In s [ustr "1"; ustr "on"; ustr "true"] -> documented [ustr "autocommit"; s] (A_autocommit (Some true))
| doc_autocommit_off : forall s, In s [ustr "0"; ustr "off"; ustr "false"] -> documented [ustr "autocommit"; s] (A_autocommit (Some false))
| doc_autosort_on : forall s, In s [ustr "1"; ustr "on"; ustr "true"] -> documented [ustr "autosort"; s] (A_autosort (Some true))
| doc_autosort_off : forall s, In s [ustr "0"; ustr "off"; ustr "false"] -> documented [ustr "autosort"; s] (A_autosort (Some false))
| doc_help : documented [ustr "help"] A_help
| doc_help_on : forall m, plain m -> documented [ustr "help"; m] (A_help_on false m)
| doc_method_help : forall m flag, word m -> ~ In 40 m -> In flag [ustr "-h"; ustr "--help"] -> documented [m; flag] (A_help_on false m)
| doc_call_help : forall m args flag, word (m ++ 40 :: args) -> ~ In 40 m -> In flag [ustr "-h"; ustr "--help"] ->
    documented [m ++ 40 :: args; flag] (A_help_on false m)
| doc_comment : forall w l, Forall word ((35 :: w) :: l) -> plain (last ((35 :: w) :: l) []) -> documented ((35 :: w) :: l) A_nothing
| doc_python_help : forall m, plain m -> documented [ustr "??"; m] (A_help_on true m)
| doc_exit : documented [ustr "exit"] (A_exit None)
| doc_quit : documented [ustr "quit"] (A_exit None)
| doc_shell : documented [ustr "shell"] (A_shell true)
| doc_exec : forall l, l <> [] -> Forall word l -> plain (last l []) -> documented (ustr "exec" :: l) (A_exec l)
| doc_run : forall w l, Forall word ((33 :: w) :: l) -> plain (last ((33 :: w) :: l) []) -> last (line_of ((33 :: w) :: l)) 0 <> 42 ->
    documented ((33 :: w) :: l) (A_run (line_of (w :: l)))
| doc_eval : forall w l, Forall word (w :: l) -> plain (last (w :: l) []) -> ~ In w keywords -> hd 0 w <> 33 -> hd 0 w <> 35 -> last (line_of (w :: l)) 0 <> 42 ->
    documented (w :: l) (A_eval false (line_of (w :: l))).

(** ** Scripts: what the lines of standard input, when it is no terminal, do to the world, and the status. *)
Section Script.
  Variable world : Type.
  Variable does : pystr -> world -> world * ends.
  Variable ends_here : pystr -> Prop.
  Inductive script : list pystr -> world -> world -> Z -> Prop :=
  | sc_end : forall w, script [] w w 0
  | sc_exit : forall l r w, ends_here l -> script (l :: r) w w 0
  | sc_next : forall l r w w1 w2 z, ~ ends_here l -> does l w = (w1, E_fine) -> script r w1 w2 z -> script (l :: r) w w2 z
  | sc_fails : forall l r w w1 e, ~ ends_here l -> does l w = (w1, e) -> e = E_fails \/ e = E_interrupt -> script (l :: r) w w1 255.

  (** At a terminal; [again]: Ctrl+C was the last thing. *)
  Inductive session : bool -> list input -> world -> world -> Z -> Prop :=
  | se_end : forall again w, session again [] w w 0
  | se_exit : forall again l r w, ends_here l -> session again (I_line l :: r) w w 0
  | se_next : forall again l r w w1 w2 e z, ~ ends_here l -> does l w = (w1, e) -> e = E_fine \/ e = E_fails -> session false r w1 w2 z ->
      session again (I_line l :: r) w w2 z
  | se_stopped : forall again l r w w1 w2 z, ~ ends_here l -> does l w = (w1, E_interrupt) -> session true r w1 w2 z -> session again (I_line l :: r) w w2 z
  | se_eof : forall again l r w w1, ~ ends_here l -> does l w = (w1, E_eof) -> session again (I_line l :: r) w w1 0
  | se_leaves : forall again l r w w1 z, ~ ends_here l -> does l w = (w1, E_exit z) -> session again (I_line l :: r) w w1 (z mod 256)
  | se_once : forall r w w2 z, session true r w w2 z -> session false (I_interrupt :: r) w w2 z
  | se_twice : forall r w, session true (I_interrupt :: r) w w 0.
End Script.
