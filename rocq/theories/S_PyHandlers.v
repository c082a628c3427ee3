(** Specification of what the handlers of the web frameworks do, independently of their code. *)
From Verif Require Import Base Value Unicode M_Marshal M_Xml M_XmlUm M_Python M_PyDumps M_PyHandlers S_Value S_Events S_Iso S_Xml S_Wire S_XmlUm S_Python S_PyXml.

(** White space of Python, written out. *)
Definition white (c : Z) : Prop :=
  9 <= c <= 13 \/ 28 <= c <= 32 \/ c = 133 \/ c = 160 \/ c = 5760 \/ 8192 <= c <= 8202 \/ c = 8232 \/ c = 8233 \/ c = 8239 \/ c = 8287 \/ c = 12288.
(** A name of a type: no commas, no white space at its ends, not empty. *)
Definition type_name (t : pystr) : Prop :=
  ~ In 44 t /\ (exists a r, t = a :: r /\ ~ white a) /\ (exists r a, t = r ++ [a] /\ ~ white a).
(** The list [a], of elements with commas between them, has the element [t] with any white space around it. *)
Definition listed (a t : pystr) : Prop :=
  exists before sp1 sp2 after, a = before ++ sp1 ++ t ++ sp2 ++ after /\ Forall white sp1 /\ Forall white sp2 /\
    (before = [] \/ exists b, before = b ++ [44]) /\ (after = [] \/ exists b, after = 44 :: b).

(** The value of the field has an element that is one of these types. *)
Definition accepts_one (types : list pystr) (a : pystr) : Prop := exists t, In t types /\ listed a t.

(** The type of an answer: binary if the request accepts it. *)
Definition answer_type (a ct : pystr) : Prop := ct = FRPC_TYPE /\ listed a FRPC_TYPE \/ ct = XML_TYPE /\ ~ listed a FRPC_TYPE.

(** A [dict] with the items of another and a status if that has none: 200, and the message OK unless it has one. *)
Definition key (k : string) : py := PyStr (map b2z (str k)).
Definition status_of (n : Z) (t : pystr) : py := PyDict [(key "status", PyInt n); (key "statusMessage", PyStr t)].
Inductive with_status : py -> py -> Prop :=
| ws_other : forall p, (forall m, p <> PyDict m) -> with_status p p
| ws_has : forall m v, In (key "status", v) m -> v <> PyInt 200 -> (forall d, v <> PyFloat d) -> with_status (PyDict m) (PyDict m)
| ws_has_ok : forall m, In (key "status", PyInt 200) m -> In (key "statusMessage") (map fst m) -> with_status (PyDict m) (PyDict m)
| ws_has_200 : forall m, In (key "status", PyInt 200) m -> ~ In (key "statusMessage") (map fst m) ->
    with_status (PyDict m) (PyDict (m ++ [(key "statusMessage", PyStr (map b2z (str "OK")))]))
| ws_none : forall m, ~ In (key "status") (map fst m) -> In (key "statusMessage") (map fst m) -> with_status (PyDict m) (PyDict (m ++ [(key "status", PyInt 200)]))
| ws_new : forall m, ~ In (key "status") (map fst m) -> ~ In (key "statusMessage") (map fst m) ->
    with_status (PyDict m) (PyDict (m ++ [(key "status", PyInt 200); (key "statusMessage", PyStr (map b2z (str "OK")))])).

(** ** Requests and answers *)
Section Messages.
  Variable host : datetime -> datetime.
  Variable native : bool.
  Variable fin : Z -> bytes.
  Variable strtod : bytes -> option Z.

  (** The body of a request with which a C++ program calls [n], in either format; a Python program reads its parameters as these objects. *)
  Inductive asks : bytes -> pystr -> list py -> Prop :=
  | asks_binary : forall ver name n ps l wire, modern ver -> name_ok name -> same_str name n -> Forall (fun v => wf ver v /\ texts v /\ no_nul_names v) ps ->
      sent ver (call_calls name ps) = Ok wire -> Forall2 (reads host native) ps l -> asks wire n l
  | asks_xml : forall ver name n ps l text, 2 <= v_major ver <= 3 -> name_ok name -> xml_text name -> same_str name n ->
      Forall (fun v => xml_wf (double_exact fin strtod) v /\ ordered v) ps ->
      xml_output fin ver (call_calls name ps) = Ok text -> Forall2 (reads host native) (map (plain iso_fields) ps) l -> asks text n l.

  (** The body of an answer with the object [q]: in the binary format, as a C++ client reads it however it arrives; in XML, as a Python client reads it. *)
  Inductive tells : py -> py -> Prop :=
  | tells_binary : forall wire u q, means host u q ->
      (forall req pieces, accepts req T_METHOD_RESPONSE -> concat pieces = wire -> received_value None req pieces = Ok u) -> tells (PyBytes wire) q
  | tells_xml : forall text q,
      (forall P pass, prompt P -> loads_data host pass native P strtod false None (PyStr text) = PyOk (seen host native (undated q), None)) -> tells (PyStr text) q.
  (** With a fault. *)
  Inductive tells_fault : py -> Z -> pystr -> Prop :=
  | fault_binary : forall wire code m, (forall req pieces, accepts req T_FAULT -> concat pieces = wire -> received_value None req pieces = Err (FaultExn code (flat_map utf8_char m))) ->
      tells_fault (PyBytes wire) code m
  | fault_xml : forall text code m, (forall P pass, prompt P -> loads_data host pass native P strtod false None (PyStr text) = PyRaise (PE_Fault (PyInt code) (PyStr m))) ->
      tells_fault (PyStr text) code m.

  (** Objects an answer of that type can carry. *)
  Definition can_tell (ctype : pystr) (q : py) : Prop :=
    is_object q /\ (ctype = FRPC_TYPE /\ within host (mkVer 2 1) q /\ py_sends (mkVer 2 1) q \/ ctype = XML_TYPE /\ xml_has (double_exact fin strtod) q).
End Messages.

(** ** Methods *)
(** What is registered under a name: the last that was. *)
Definition latest {A} (regs : list (pystr * A)) (n : pystr) (m : A) : Prop := exists before after, regs = before ++ (n, m) :: after /\ ~ In n (map fst after).
(** Each element once, where it is first. *)
Fixpoint first_ones (l : list pystr) : list pystr :=
  match l with [] => [] | x :: r => x :: filter (fun y => negb (str_eqb x y)) (first_ones r) end.

(** Objects without a date whose time is the smallest number of 64 bits. *)
Section Dates.
  Variable host : datetime -> datetime.
  Fixpoint no_least_time (p : py) : Prop :=
    match p with
    | PyDate d => dt_unix d <> - 2 ^ 63
    | PyStdDate d => dt_unix (as_local host d) <> - 2 ^ 63
    | PyList l | PyTuple l => (fix all (l : list py) : Prop := match l with [] => True | x :: r => no_least_time x /\ all r end) l
    | PyDict m => (fix all (l : list (py * py)) : Prop := match l with [] => True | (_, x) :: r => no_least_time x /\ all r end) m
    | _ => True
    end.
End Dates.
