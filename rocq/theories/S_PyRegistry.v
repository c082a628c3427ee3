(** What the documentation of the Python server promises about calls, independently of how they are dispatched. *)
From Verif Require Import Base Value Unicode M_Python S_Python M_Registry S_Registry M_PyRegistry.

Section Calls.
  Context {W : Type}.
  Variable g : pregistry (W:=W).
  Variable client : py.

  (** The object standing for an exception: a fault itself, for others an internal error with the text of the exception. *)
  Inductive stands_for (prefix : string) (t : thrown) : py -> Prop :=
  | stands_fault : t_fault t = true -> stands_for prefix t (t_value t)
  | stands_other : forall text, t_fault t = false -> t_text t = Some text ->
      stands_for prefix t (PyFault (PyInt (-500)) (PyStr (ustr prefix ++ text))).

  Definition known (name : bytes) (m : pmethod) : Prop := map_get name (r_methods g) = Some m.
  Definition unknown (name : bytes) : Prop := map_get name (r_methods g) = None.

  (** The preprocessor sees the call; [Some t]: it refuses it. *)
  Inductive preprocessed (w : W) (name : bytes) (u : pystr) (l : list py) : W -> option thrown -> Prop :=
  | pre_none : r_pre g = None -> preprocessed w name u l w None
  | pre_passes : forall f names w1 v, r_pre g = Some f -> (forall m, known name m -> names = m_names m) -> (unknown name -> names = None) ->
      f w u client l names = (w1, Returned v) -> preprocessed w name u l w1 None
  | pre_refuses : forall f names w1 t, r_pre g = Some f -> (forall m, known name m -> names = m_names m) -> (unknown name -> names = None) ->
      f w u client l names = (w1, Threw t) -> preprocessed w name u l w1 (Some t).

  (** The method runs; [sys] says what the system methods do. *)
  Variable sys : pkind (W:=W) -> W -> list py -> W -> called -> Prop.
  Inductive method_ran (w : W) (name : bytes) (u : pystr) (l : list py) : W -> called -> Prop :=
  | ran_plain : forall f m w2 x, known name m -> m_kind m = Plain f -> f w l = (w2, x) -> method_ran w name u l w2 x
  | ran_context : forall f m w2 x, known name m -> m_kind m = With_context f -> f w (Some l) = (w2, x) -> method_ran w name u l w2 x
  | ran_default : forall d w2 x, unknown name -> r_default g = Some d -> d w u l = (w2, x) -> method_ran w name u l w2 x
  | ran_unknown : unknown name -> r_default g = None -> blen name <= 491 ->
      method_ran w name u l w (Returned (PyFault (PyInt (-506)) (PyStr (ustr "Method '" ++ u ++ ustr "' not found."))))
  | ran_system : forall m w2 x, known name m -> (forall f, m_kind m <> Plain f) -> (forall f, m_kind m <> With_context f) ->
      sys (m_kind m) w l w2 x -> method_ran w name u l w2 x.

  (** What the caller would get without a postprocessor. *)
  Inductive shows : called -> py -> Prop :=
  | shows_value : forall v, shows (Returned v) v
  | shows_exception : forall t v, stands_for "Unhandled exception " t v -> shows (Threw t) v.

  (** What the postprocessor is told: the value, the fault, or the exception. *)
  Inductive told : called -> option py -> option py -> option thrown -> Prop :=
  | told_value : forall v, (forall c m, v <> PyFault c m) -> told (Returned v) (Some v) None None
  | told_fault : forall c m, told (Returned (PyFault c m)) None (Some (PyFault c m)) None
  | told_raised : forall t, t_fault t = true -> told (Threw t) None (Some (t_value t)) None
  | told_exception : forall t, t_fault t = false -> told (Threw t) None None (Some t).

  Inductive postprocessed (w : W) (u : pystr) (l : list py) (x : called) : W -> py -> Prop :=
  | post_none : forall v, r_post g = None -> shows x v -> postprocessed w u l x w v
  | post_passes : forall f w1 v r p e, r_post g = Some f -> told x r p e -> f w u client l r p e = (w1, Returned PyNone) -> shows x v -> postprocessed w u l x w1 v
  | post_replaces : forall f w1 v r p e, r_post g = Some f -> told x r p e -> f w u client l r p e = (w1, Returned v) -> v <> PyNone -> postprocessed w u l x w1 v
  | post_raises : forall f w1 t v r p e, r_post g = Some f -> told x r p e -> f w u client l r p e = (w1, Threw t) ->
      stands_for "Unhandled exception in postprocessor " t v -> postprocessed w u l x w1 v.

  (** A call of the method [name], in UTF-8 [u], with the parameters [l]: the preprocessor, unless it refuses the method, the
      postprocessor. *)
  Inductive handled (w : W) (name : bytes) (u : pystr) (l : list py) : W -> py -> Prop :=
  | handled_runs : forall w1 w2 x w3 v, preprocessed w name u l w1 None -> method_ran w1 name u l w2 x -> postprocessed w2 u l x w3 v -> handled w name u l w3 v
  | handled_refused : forall w1 t r w3 v, preprocessed w name u l w1 (Some t) -> stands_for "Unhandled exception in preprocessor " t r ->
      postprocessed w1 u l (Returned r) w3 v -> handled w name u l w3 v.

  (** Names a request can hold without being cut: no NUL; not too long for the fault of an unknown method. *)
  Definition callable (name : bytes) (u : pystr) : Prop := same_str name u /\ ~ In 0 u /\ (unknown name -> r_default g = None -> blen name <= 491).

  (** ** Multicall *)
  Definition fault_entry (code : Z) (msg : string) : py :=
    PyDict [(PyStr (ustr "faultCode"), PyInt code); (PyStr (ustr "faultString"), PyStr (ustr msg))].
  (** An item of a [dict]. *)
  Definition item (k : string) (m : list (py * py)) (v : py) : Prop := exists before after, m = before ++ (PyStr (ustr k), v) :: after /\ ~ In (PyStr (ustr k)) (map fst before).
  Definition no_item (k : string) (m : list (py * py)) : Prop := ~ In (PyStr (ustr k)) (map fst m).
  Definition sequence (v : py) (l : list py) : Prop := v = PyList l \/ v = PyTuple l.
  (** A result within the result of a multicall. *)
  Inductive entry_view : py -> py -> Prop :=
  | view_fault : forall c m, entry_view (PyFault c m) (PyDict [(PyStr (ustr "faultCode"), c); (PyStr (ustr "faultString"), m)])
  | view_value : forall v, (forall c m, v <> PyFault c m) -> entry_view v v.
  Inductive entry_done (w : W) : py -> W -> py -> Prop :=
  | done_call : forall m n u l p w1 v r, item "params" m p -> sequence p l -> item "methodName" m (PyStr u) -> same_str n u -> ~ In 0 u ->
      handled w n u l w1 v -> entry_view v r -> entry_done w (PyDict m) w1 r
  | done_no_struct : forall e, (forall m, e <> PyDict m) -> entry_done w e w (fault_entry (-501) "Expected structure with method call.")
  | done_no_params : forall m, no_item "params" m -> entry_done w (PyDict m) w (fault_entry (-501) "Cannot get params.")
  | done_bad_params : forall m p, item "params" m p -> (forall l, ~ sequence p l) -> entry_done w (PyDict m) w (fault_entry (-501) "Params must be an array.")
  | done_no_name : forall m p l, item "params" m p -> sequence p l -> no_item "methodName" m -> entry_done w (PyDict m) w (fault_entry (-501) "Cannot get methodName.")
  | done_bad_name : forall m p l n text, item "params" m p -> sequence p l -> item "methodName" m n -> (forall b u, n = PyStr u -> ~ same_str b u) ->
      entry_done w (PyDict m) w (PyDict [(PyStr (ustr "faultCode"), PyInt (-500)); (PyStr (ustr "faultString"), PyStr (ustr "Cannot convert methodName to string." ++ text))]).
  Definition callable_entry (e : py) : Prop := forall m n u, e = PyDict m -> item "methodName" m (PyStr u) -> same_str n u -> callable n u.
  Inductive entries_done : W -> list py -> W -> list py -> Prop :=
  | entries_nil : forall w, entries_done w [] w []
  | entries_cons : forall w e w1 r es w2 rs, entry_done w e w1 r -> entries_done w1 es w2 rs -> entries_done w (e :: es) w2 (r :: rs).
End Calls.

(** ** Signatures *)
(** A signature: alternatives between commas, each the type of the result, a colon and the types of the parameters; the last one
    may lack the end. *)
Inductive part_words : bytes -> list bytes -> Prop :=
| part_type : forall c w rest ws, letter_word c w -> Forall2 letter_word rest ws -> part_words (c :: x3a :: rest) (w :: ws).
Inductive last_words : bytes -> list bytes -> Prop :=
| last_empty : last_words [] []
| last_result : forall c w, letter_word c w -> last_words [c] [w]
| last_part : forall s ws, part_words s ws -> last_words s ws.
Inductive signature_words : bytes -> list (list bytes) -> Prop :=
| sig_last : forall s ws, last_words s ws -> signature_words s [ws]
| sig_more : forall s ws rest l, part_words s ws -> signature_words rest l -> signature_words (s ++ x2c :: rest) (ws :: l).
Definition words_object (l : list (list bytes)) : py := PyList (map (fun ws => PyList (map (fun w => PyStr (map b2z w)) ws)) l).

(** What a system method of the registry does when it is called. *)
Definition system {W} (own : pyexn -> pystr) (g : pregistry (W:=W)) (client : py) (k : pkind (W:=W)) (w : W) (l : list py) (w2 : W) (x : called) : Prop :=
  call_kind own (fun w n ps => dispatch_call own g client w n (Params ps)) g w k (Params l) = (w2, x).

(** Callables whose exceptions have a text; none of them crashes. *)
Definition fine (x : called) : Prop := match x with Returned _ => True | Threw t => t_fault t = true \/ t_text t <> None | Crashed => False end.
Record well_behaved {W} (g : pregistry (W:=W)) : Prop := mkWell {
  well_pre : forall f w u c l n, r_pre g = Some f -> fine (snd (f w u c l n));
  well_post : forall f w u c l r p e, r_post g = Some f -> fine (snd (f w u c l r p e));
  well_plain : forall name m f w l, map_get name (r_methods g) = Some m -> m_kind m = Plain f -> fine (snd (f w l));
  well_context : forall name m f w l, map_get name (r_methods g) = Some m -> m_kind m = With_context f -> fine (snd (f w l));
  well_default : forall f w u l, r_default g = Some f -> fine (snd (f w u l));
  well_list : forall f w, r_list g = Some f -> fine (snd (f w));
  well_help : forall f w u, r_help g = Some f -> fine (snd (f w u));
  well_signature : forall f w u, r_signature g = Some f -> fine (snd (f w u))
}.

(** ** Registering *)
Record registration {W} : Type := mkRegn { n_name : pystr; n_kind : pkind (W:=W); n_signature : option py; n_help : option py; n_names : option (py * Z) }.
Arguments registration : clear implicits.
Arguments mkRegn {W}.
(** The calls of [register] that succeed one after the other. *)
Inductive registers {W} : pregistry (W:=W) -> list (registration W) -> pregistry (W:=W) -> Prop :=
| registers_none : forall g, registers g [] g
| registers_next : forall g r g1 rs g2, is_str (n_name r) -> pregister (n_name r) (n_kind r) (n_signature r) (n_help r) (n_names r) g = PyOk g1 -> registers g1 rs g2 -> registers g (r :: rs) g2.
(** A signature that is a [str] holds code points. *)
Definition signature_object {W} (r : registration W) : Prop := forall u, n_signature r = Some (PyStr u) -> is_str u.
(** [r] is the last of the registrations with its name. *)
Definition last_one {W} (rs : list (registration W)) (r : registration W) : Prop := exists before after, rs = before ++ r :: after /\ ~ In (n_name r) (map n_name after).
(** The signature kept: the words for a text, another object itself. *)
Inductive signature_kept : option py -> py -> Prop :=
| kept_none : signature_kept None (PyTuple [])
| kept_text : forall s u l, same_str s u -> signature_words s l -> signature_kept (Some (PyStr u)) (words_object l)
| kept_other : forall x, (forall u, x <> PyStr u) -> signature_kept (Some x) x.
Inductive help_kept : option py -> py -> Prop :=
| help_none : help_kept None (PyStr [])
| help_bytes : forall b, help_kept (Some (PyBytes b)) (PyBytes b).

(** The methods of a new registry: their names, what they do, the texts of their signatures. *)
Definition new_methods {W} : list (string * (pkind (W:=W) * string)) :=
  [("system.listMethods", (Sys_list, "A:")); ("system.methodHelp", (Sys_help, "s:s")); ("system.methodSignature", (Sys_signature, "s:s")); ("system.multicall", (Sys_multicall, "A:A"))]%string.

(** The order of texts by code points. *)
Definition text_le (a b : pystr) : Prop := (exists r, b = a ++ r) \/ exists p x y r s, a = p ++ x :: r /\ b = p ++ y :: s /\ x < y.
