(** What the documentation of the method registry promises, independently of how calls are dispatched. *)
From Verif Require Import Base Value M_Marshal M_Registry.

Section Registry.
  Context {W : Type}.
  (** The text of an exception that is not a fault. *)
  Variable message : exn -> bytes.

  Definition registered (g : registry (W:=W)) (name : bytes) (e : entry) : Prop := map_get name (g_methods g) = Some e.
  Definition not_registered (g : registry (W:=W)) (name : bytes) : Prop := map_get name (g_methods g) = None.

  (** What the method answering to [name] does with these parameters (methods of the application only). *)
  Inductive runs (g : registry (W:=W)) (w : W) (name : bytes) (params : list value) (w' : W) (x : res value) : Prop :=
  | runs_registered : forall f sig help, registered g name (mkEntry (User f) sig help) -> f w params = (w', x) -> runs g w name params w' x
  | runs_default : forall d, not_registered g name -> g_default g = Some d -> d w name params = (w', x) -> runs g w name params w' x.

  (** The same for any method object, system methods included. *)
  Inductive method_runs (g : registry (W:=W)) (w : W) (name : bytes) (params : list value) (w' : W) (x : res value) : Prop :=
  | any_registered : forall e, registered g name e -> call_registered message g w (e_handler e) params = (w', x) -> method_runs g w name params w' x
  | any_default : forall d, not_registered g name -> g_default g = Some d -> d w name params = (w', x) -> method_runs g w name params w' x.

  (** How a call ends: as its method does, or, without one, with the fault for unknown methods. *)
  Inductive call_yields (g : registry (W:=W)) (w : W) (name : bytes) (params : list value) (w' : W) (x : res value) : Prop :=
  | yields_method : method_runs g w name params w' x -> call_yields g w name params w' x
  | yields_unknown : not_registered g name -> g_default g = None -> w' = w ->
      x = Err (FaultExn (-506) (ztake 1023 (str "Method " ++ fst (M_Url.break_at 0 name) ++ str " not found"))) -> call_yields g w name params w' x.

  (** Faults documented for exceptions. *)
  Inductive documented : exn -> Z -> bytes -> Prop :=
  | doc_type : documented TypeError (-501) (message TypeError)
  | doc_len : documented LenError (-501) (message LenError)
  | doc_key : documented KeyError (-502) (message KeyError)
  | doc_index : documented IndexError (-502) (message IndexError)
  | doc_stream : forall m, documented (StreamError m) (-503) (message (StreamError m))
  | doc_fault : forall code msg, documented (FaultExn code msg) code msg.

  (** Errors of the transport, for which no answer can be sent. *)
  Definition transport_error (e : exn) : Prop := exists c, e = ProtocolError c \/ e = HTTPError c.

  (** A text a C string can hold. *)
  Definition no_nul (s : bytes) : Prop := ~ In x00 s.

  (** The bytes are what a new marshaller writes for exactly these calls and [flush]. *)
  Definition written (m : marshaller) (calls : list mcall) (out : bytes) : Prop :=
    exists o s, ma_run m (ma_init m) calls = (o, s, None) /\ out = o ++ ma_flush m s.
  Definition accepts_calls (m : marshaller) (calls : list mcall) : Prop := exists out, written m calls out.

  (** A fault as an element of the result of a multicall. *)
  Definition fault_value (code : Z) (msg : bytes) : value :=
    VStruct [(str "faultCode", VInt code); (str "faultString", VString msg)].

  (** What a multicall shows for the outcome of a method. *)
  Inductive shown : res value -> value -> Prop :=
  | shown_value : forall v, shown (Ok v) v
  | shown_fault : forall e code msg, documented e code msg -> (forall m, e <> StreamError m) -> shown (Err e) (fault_value code msg).

  (** What an entry of a multicall does and shows. *)
  Inductive entry_shows (g : registry (W:=W)) (w : W) : value -> W -> value -> Prop :=
  | shows_no_struct : forall v, (forall m, v <> VStruct m) -> entry_shows g w v w (fault_value (-501) (str "Parameter must be struct"))
  | shows_no_name : forall m, map_get (str "methodName") m = None -> entry_shows g w (VStruct m) w (fault_value (-502) (message KeyError))
  | shows_bad_name : forall m v, map_get (str "methodName") m = Some v -> (forall s, v <> VString s) ->
      entry_shows g w (VStruct m) w (fault_value (-501) (message TypeError))
  | shows_unknown : forall m name, map_get (str "methodName") m = Some (VString name) -> not_registered g name -> g_default g = None ->
      entry_shows g w (VStruct m) w (fault_value (-506) (ztake 1023 (str "Method " ++ fst (M_Url.break_at 0 name) ++ str " not found")))
  | shows_no_params : forall m name, map_get (str "methodName") m = Some (VString name) -> (~ not_registered g name \/ g_default g <> None) ->
      map_get (str "params") m = None -> entry_shows g w (VStruct m) w (fault_value (-502) (message KeyError))
  | shows_bad_params : forall m name v, map_get (str "methodName") m = Some (VString name) -> (~ not_registered g name \/ g_default g <> None) ->
      map_get (str "params") m = Some v -> (forall l, v <> VArray l) -> entry_shows g w (VStruct m) w (fault_value (-501) (message TypeError))
  | shows_run : forall m name params w' x v, map_get (str "methodName") m = Some (VString name) -> map_get (str "params") m = Some (VArray params) ->
      method_runs g w name params w' x -> shown x v -> entry_shows g w (VStruct m) w' v.

  (** One after another. *)
  Inductive all_show (g : registry (W:=W)) : W -> list value -> W -> list value -> Prop :=
  | all_nil : forall w, all_show g w [] w []
  | all_cons : forall w e w1 v es w2 vs, entry_shows g w e w1 v -> all_show g w1 es w2 vs -> all_show g w (e :: es) w2 (v :: vs).

  (** The words of [system.methodSignature]. *)
  Inductive letter_word : byte -> bytes -> Prop :=
  | word_array : letter_word x41 (str "array")
  | word_struct : letter_word x53 (str "struct")
  | word_binary : letter_word x42 (str "binary")
  | word_datetime : letter_word x44 (str "dateTime")
  | word_bool : letter_word x62 (str "bool")
  | word_double : letter_word x64 (str "double")
  | word_int : letter_word x69 (str "int")
  | word_string : letter_word x73 (str "string").
End Registry.

(** A registry after its construction with introspection and these registrations. *)
Definition with_methods {W} (regs : list (bytes * entry (W:=W))) : registry (W:=W) :=
  fold_left (fun g ne => register (fst ne) (snd ne) g) regs (new_registry true).

(** The names and descriptions a new registry has. *)
Definition system_methods : list (bytes * (bytes * bytes)) :=
  [ (str "system.listMethods", (str "A:", str "List all registered methods"));
    (str "system.methodHelp", (str "s:s", str "Return given method help"));
    (str "system.methodSignature", (str "A:s", str "Return given method signature"));
    (str "system.multicall", (str "A:A", str "Call given methods")) ].

(** [name] was described last by signature [sig] and help text [help]. *)
Definition described {W} (regs : list (bytes * entry (W:=W))) (name sig help : bytes) : Prop :=
  exists before after,
    system_methods ++ map (fun ne => (fst ne, (e_signature (snd ne), e_help (snd ne)))) regs = before ++ (name, (sig, help)) :: after
    /\ ~ In name (map fst after).

(** The texts between the commas. *)
Inductive comma_parts : bytes -> list bytes -> Prop :=
| parts_last : forall s, ~ In x2c s -> comma_parts s [s]
| parts_more : forall s rest l, ~ In x2c s -> comma_parts rest l -> comma_parts (s ++ x2c :: rest) (s :: l).

(** The words of the letters of a text; other characters have none. *)
Inductive letter_words : bytes -> list bytes -> Prop :=
| words_nil : letter_words [] []
| words_letter : forall c w s l, letter_word c w -> letter_words s l -> letter_words (c :: s) (w :: l)
| words_other : forall c s l, (forall w, ~ letter_word c w) -> letter_words s l -> letter_words (c :: s) l.
