(** Model of src/frpcurlunmarshaller.cc. *)
From Verif Require Import Base Value M_BinUnmarshal Text M_Iso.

(** [endsWith(str, "[]")] and [extractMember] (frpcurlunmarshaller.cc 54-66). *)
Definition ends_brackets (s : bytes) : bool :=
  match rev s with
  | b :: a :: _ => is_char 91 a && is_char 93 b
  | _ => false
  end.
Definition extract_member (s : bytes) : bytes := if ends_brackets s then ztake (blen s - 2) s else s.

(** One digit of [unhex] (frpcurlunmarshaller.cc 72-86): anything else counts as 0. *)
Definition unhex1 (c : byte) : Z :=
  let z := b2z c in
  if (48 <=? z) && (z <=? 57) then z - 48
  else if (97 <=? z) && (z <=? 102) then z - 87
  else if (65 <=? z) && (z <=? 70) then z - 55
  else 0.
(** [unhex] (frpcurlunmarshaller.cc 72-86). *)
Definition unhex (a b : byte) : byte := z2b (Z.lor (Z.shiftl (unhex1 a) 4) (unhex1 b)).

(** [urldecode] (frpcurlunmarshaller.cc 91-115).  After '%' the iterator moves on; with fewer than two characters left nothing
    is appended and the loop increment follows, which runs past the end if there was none left. *)
Fixpoint urldecode (s : bytes) : res bytes :=
  match s with
  | [] => Ok []
  | c :: r =>
      if is_char 37 c then
        match r with
        | [] => UB
        | [_] => Ok []
        | a :: b :: r' => bind (urldecode r') (fun t => Ok (unhex a b :: t))
        end
      else if is_char 43 c then bind (urldecode r) (fun t => Ok (x20 :: t))
      else bind (urldecode r) (fun t => Ok (c :: t))
  end.

(** [unquote] (frpcurlunmarshaller.cc 119-146). *)
Fixpoint unquote (s : bytes) : bytes :=
  match s with
  | [] => []
  | c :: r =>
      if is_char 92 c then
        match r with
        | d :: r' => if is_char 92 d || is_char 34 d then d :: unquote r' else c :: unquote r
        | [] => [c]
        end
      else c :: unquote r
  end.

(** The pointers to member functions [Builder_t] (frpcurlunmarshaller.cc 155, 219-298). *)
Inductive ukind : Type := K_nothing | K_string | K_bool | K_null | K_int | K_double | K_datetime.

(** [resolveType] (frpcurlunmarshaller.cc 310-342). *)
Definition resolve_type (v : bytes) : res ukind :=
  match v with
  | [] => Ok K_nothing
  | c :: _ =>
      if is_char 34 c then
        if (blen v =? 1) || negb (is_char 34 (last v x00)) then Err (StreamError "String must ends with `""'")
        else Ok K_string
      else if is_char 102 c || is_char 116 c then Ok K_bool
      else if is_char 110 c then Ok K_null
      else if is_digit c then
        if negb (blen v =? 24) || negb (is_char 84 (nth 10 v x00)) then
          (if existsb (is_char 46) v then Ok K_double else Ok K_int)
        else Ok K_datetime
      else Err (StreamError "Can't resolve type of value")
  end.

(** [buffer.find(sep, ...)] and [substr]: the text before the first separator and the text after it. *)
Fixpoint break_at (sep : Z) (s : bytes) : bytes * option bytes :=
  match s with
  | [] => ([], None)
  | c :: r => if is_char sep c then ([], Some r)
              else let '(a, b) := break_at sep r in (c :: a, b)
  end.

(** Splitting at every '&' (the [do] loop of frpcurlunmarshaller.cc 165-188). *)
Fixpoint split_at (sep : Z) (s : bytes) : list bytes :=
  match s with
  | [] => [[]]
  | c :: r => if is_char sep c then [] :: split_at sep r
              else match split_at sep r with
                   | x :: xs => (c :: x) :: xs
                   | [] => [[c]]
                   end
  end.

(** [values], a [std::map] from names to the values in the order they came (frpcurlunmarshaller.cc 183, 195-214). *)
Definition uvalues := list (bytes * list (ukind * bytes)).

(** [values[name].emplace_back(type, value)] (frpcurlunmarshaller.cc 183) on [std::map]. *)
Definition values_add (name : bytes) (x : ukind * bytes) (m : uvalues) : uvalues :=
  map_set name (match map_get name m with Some l => l ++ [x] | None => [x] end) m.

(** The constructor of [Values_t] (frpcurlunmarshaller.cc 161-189).  A segment without '=' is skipped: [iequal < iamp] fails
    when the first '=' is behind the segment. *)
Fixpoint values_of (segs : list bytes) (m : uvalues) : res uvalues :=
  match segs with
  | [] => Ok m
  | s :: r =>
      match break_at 61 s with
      | (_, None) => values_of r m
      | (name, Some raw) =>
          bind (urldecode raw) (fun d =>
            let v := unquote d in
            bind (resolve_type v) (fun k => values_of r (values_add name (k, v) m)))
      end
  end.

(** [strtoll(str.c_str(), &end, 10)] of text that starts with a digit, then [*end]: the text up to the
    first zero byte must be digits only. *)
Definition c_str (s : bytes) : bytes := fst (break_at 0 s).
Definition all_digits (s : bytes) : bool := forallb is_digit s.

Section Build.
  (** [strtod] of the C string: [None] if something is left over ([*end] not 0); the flag tells ERANGE. *)
  Variable strtod : bytes -> option Z * bool.
  (** [errno == ERANGE] on entry: the code never clears it. *)
  Variable erange : bool.

  (** [buildXxx] (frpcurlunmarshaller.cc 219-298): the builder call or an exception. *)
  Definition build_one (x : ukind * bytes) : res (list event) :=
    let '(k, s) := x in
    match k with
    | K_nothing => Ok []
    | K_string => Ok [EString (ztake (blen s - 2) (tl s))]
    | K_bool => Ok [EBool (bytes_eqb s (str "true"))]
    | K_null => Ok [ENull]
    | K_int =>
        if negb (all_digits (c_str s)) then Err (StreamError "Can't convert to int")
        else if erange || (2 ^ 63 - 1 <? undec (c_str s)) then Err (StreamError "Unsupported size of int (too small/big)")
        else Ok [EInt (undec (c_str s))]
    | K_double =>
        match strtod (c_str s) with
        | (None, _) => Err (StreamError "Can't convert to double")
        | (Some d, e) => if erange || e then Err (StreamError "Unsupported size of double (too small/big)")
                         else Ok [EDouble d]
        end
    | K_datetime => bind (parse_iso s) (fun d => Ok [EDateTime d])
    end.

  (** Builder calls up to an exception. *)
  Definition trace := (list event * option fail)%type.
  Definition then_ (a : trace) (k : trace) : trace :=
    match a with
    | (l, None) => (l ++ fst k, snd k)
    | _ => a
    end.
  Definition of_res (r : res (list event)) : trace :=
    match r with
    | Ok l => (l, None)
    | Err e => ([], Some (Exn e))
    | UB => ([], Some Undef)
    end.
  Fixpoint seq_trace (l : list trace) : trace :=
    match l with
    | [] => ([], None)
    | a :: r => then_ a (seq_trace r)
    end.

  (** [dump] (frpcurlunmarshaller.cc 195-214). *)
  Definition dump_member (kv : bytes * list (ukind * bytes)) : trace :=
    let '(name, l) := kv in
    then_ ([EMember (extract_member name)], None)
      (if ends_brackets name then
         then_ ([EOpenArray (zlen l)], None)
           (then_ (seq_trace (map (fun x => of_res (build_one x)) l)) ([ECloseArray], None))
       else
         match l with
         | x :: _ => of_res (build_one x)
         | [] => ([], Some Undef)
         end).

  (** [URLUnMarshaller_t::finish] (frpcurlunmarshaller.cc 368-377): the calls the builder gets. *)
  Definition url_finish (method buffer : bytes) : trace :=
    then_ ([EMethodCall method], None)
      (match values_of (split_at 38 buffer) [] with
       | Ok m => then_ ([EOpenStruct (zlen m)], None)
                   (then_ (seq_trace (map dump_member m)) ([ECloseStruct], None))
       | Err e => ([], Some (Exn e))
       | UB => ([], Some Undef)
       end).
End Build.

(** The constructor (frpcurlunmarshaller.cc 352-357): the method name from the path (a C string behind its first character). *)
Definition url_method (path : bytes) : bytes :=
  match path with
  | [] => str "RPC2"
  | _ :: r => map (fun c => if is_char 47 c then x2e else c) (c_str r)
  end.
