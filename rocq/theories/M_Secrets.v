(** Model of the secret pointers of the tree feeder (src/frpctreefeeder.cc 76-145, 247-380) and of
    [ExtTreeBuilder_t] (src/frpctreebuilder.cc 57-194, 410-751). *)
From Verif Require Import Base Value Text M_Marshal M_BinUnmarshal M_TreeBuilder.

(** [escape_segment] (frpctreefeeder.cc 76-95). *)
Fixpoint escape (s : bytes) : bytes :=
  match s with
  | [] => []
  | c :: r =>
      (if b2z c =? 44 then [x7e; x32]
       else if b2z c =? 47 then [x7e; x31]
       else if b2z c =? 126 then [x7e; x30]
       else [c]) ++ escape r
  end.

(** [unescape_segment] (frpctreebuilder.cc 168-194). *)
Fixpoint unescape (s : bytes) : res bytes :=
  match s with
  | [] => Ok []
  | c :: r =>
      if b2z c =? 126 then
        match r with
        | [] => Err RuntimeError
        | e :: r' =>
            if b2z e =? 48 then bind (unescape r') (fun t => Ok (x7e :: t))
            else if b2z e =? 49 then bind (unescape r') (fun t => Ok (x2f :: t))
            else if b2z e =? 50 then bind (unescape r') (fun t => Ok (x2c :: t))
            else Err RuntimeError
        end
      else bind (unescape r) (fun t => Ok (c :: t))
  end.

(** One key on the pointer stack of [Secrets_t] (frpctreefeeder.cc 108-145). *)
Inductive pkey : Type := KName (k : bytes) | KIndex (i : Z).

(** The text of one key in a pointer (frpctreefeeder.cc 124-141). *)
Definition pkey_text (k : pkey) : bytes :=
  match k with KName s => escape s | KIndex i => dec i end.

(** [Secrets_t::str] (frpctreefeeder.cc 124-141). *)
Definition pointer_text (p : list pkey) : bytes :=
  match p with
  | [] => [x2f]
  | _ => flat_map (fun k => x2f :: pkey_text k) p
  end.

(** The secrets [feedValueAndGatherSecrets] returns (frpctreefeeder.cc 247-273, 328-332, 372-380): the
    pointer stack is [pre], kept oldest key first. *)
Fixpoint gather (pre : list pkey) (v : value) : list bytes :=
  match v with
  | VStruct m =>
      (fix go (l : list (bytes * value)) : list bytes :=
         match l with
         | [] => []
         | (k, x) :: r => gather (pre ++ [KName k]) x ++ go r
         end) m
  | VArray l =>
      (fix go (i : Z) (l : list value) : list bytes :=
         match l with
         | [] => []
         | x :: r => gather (pre ++ [KIndex i]) x ++ go (i + 1) r
         end) 0 l
  | VSecret x => pointer_text pre :: gather pre x
  | _ => []
  end.

(** [SecretKey_t::to_int] (frpctreebuilder.cc 83-100).  The loop runs over positions; [first] is
    [i == 0].  Overflow of the [int64_t] (keys of 19 or more digits) is not modelled. *)
Fixpoint to_int_loop (first : bool) (s : bytes) (result : Z) : Z :=
  match s with
  | [] => result
  | c :: r =>
      if (49 <=? b2z c) && (b2z c <=? 57) then to_int_loop false r (result * 10 + b2z c - 48)
      else if (b2z c =? 48) && first then to_int_loop false r result
      else -1
  end.
Definition to_int (s : bytes) : Z := to_int_loop true s 0.

(** [SecretNode_t], [SecretEdge_t] (frpctreebuilder.cc 124-163): edges in insertion order; a
    [unique_ptr] that is null is [None]. *)
Inductive snode : Type := SNode (edges : list (bytes * option snode)).
Definition sedges (n : snode) : list (bytes * option snode) := match n with SNode es => es end.

(** [SecretNode_t::find] (frpctreebuilder.cc 138-143) for a string key and for an index. *)
Definition find_name (k : bytes) (n : snode) : option (option snode) :=
  option_map snd (find (fun e => bytes_eqb (fst e) k) (sedges n)).
Definition find_index (i : Z) (n : snode) : option (option snode) :=
  option_map snd (find (fun e => to_int (fst e) =? i) (sedges n)).

(** [SecretNode_t::add] followed by an update of the edge's node (frpctreebuilder.cc 128-133, 638-645). *)
Fixpoint edge_update (k : bytes) (f : option snode -> option snode) (es : list (bytes * option snode))
  : list (bytes * option snode) :=
  match es with
  | [] => [(k, f None)]
  | (k', o) :: r => if bytes_eqb k' k then (k', f o) :: r else (k', o) :: edge_update k f r
  end.

(** One pointer entered into the tree (frpctreebuilder.cc 634-647): the last key's edge is left as
    it is. *)
Fixpoint sadd (ks : list bytes) (n : snode) : snode :=
  match ks with
  | [] => n
  | k :: r =>
      SNode (edge_update k
               (fun o => match r with
                         | [] => o
                         | _ => Some (sadd r (match o with Some n' => n' | None => SNode [] end))
                         end) (sedges n))
  end.

(** Cut at every '/': [next_key] (frpctreebuilder.cc 612-622) called until [pos >= size]; an empty last segment is
    dropped ("/a/" is "/a"). *)
Fixpoint cut_slash (s : bytes) (acc : bytes) : list bytes :=
  match s with
  | [] => match acc with [] => [] | _ => [acc] end
  | c :: r => if b2z c =? 47 then acc :: cut_slash r [] else cut_slash r (acc ++ [c])
  end.

(** [unescape_segment] on every segment, the first exception ending it (frpctreebuilder.cc 612-649). *)
Fixpoint unescape_all (l : list bytes) : res (list bytes) :=
  match l with
  | [] => Ok []
  | s :: r => bind (unescape s) (fun t => bind (unescape_all r) (fun ts => Ok (t :: ts)))
  end.

(** The keys of one pointer: pointers that do not begin with '/' are skipped (frpctreebuilder.cc 630-632). *)
Definition pointer_keys (s : bytes) : res (list bytes) :=
  match s with
  | [] => Ok []
  | c :: r => if b2z c =? 47 then unescape_all (cut_slash r []) else Ok []
  end.

(** [build_secret_tree] (frpctreebuilder.cc 627-649). *)
Fixpoint build_secret_tree (secrets : list bytes) (n : snode) : res snode :=
  match secrets with
  | [] => Ok n
  | s :: r => bind (pointer_keys s) (fun ks => build_secret_tree r (sadd ks n))
  end.

(** How an open container hangs in its parent: as an item of a call, response or array, as a
    member, or nowhere (a value inside a struct without a name is dropped, frpctreebuilder.cc 494-495). *)
Inductive link : Type := LItem | LMember (k : bytes) | LDrop.

(** [Node_t] (frpctreebuilder.cc 57-64).  As in [M_TreeBuilder] a container is linked into its parent
    when it is closed (and in [ext_plug]); [secret] tells whether it is then wrapped in a [Secret]. *)
Inductive xnode : Type :=
| XFault (code : Z) (msg : bytes)
| XCall (name : bytes) (args : list value)
| XResponse (v : option value)
| XName (k : bytes)
| XArray (l : list value) (how : link) (secret : bool)
| XStruct (m : list (bytes * value)) (how : link) (secret : bool).

(** [PNode_t] (frpctreebuilder.cc 651-654): a node of the path with its secret node. *)
Definition pnode : Type := (xnode * option snode)%type.

(** [Pimpl_t]: the path (top first) and the secret tree. *)
Record ext : Type := mkExt { x_path : list pnode; x_tree : snode }.

(** Constructor (frpctreebuilder.cc 661-666). *)
Definition ext_init (secrets : list bytes) : res ext :=
  bind (build_secret_tree secrets (SNode [])) (fun t => Ok (mkExt [] t)).

(** [{!edge->second, edge->second.get()}] of a found edge, [{false, nullptr}] otherwise. *)
Definition edge_match (e : option (option snode)) : bool * option snode :=
  match e with
  | Some None => (true, None)
  | Some (Some n) => (false, Some n)
  | None => (false, None)
  end.

(** [match_secret] (frpctreebuilder.cc 415-459). *)
Definition match_secret (path : list pnode) : res (bool * option snode) :=
  match path with
  | [] => Ok (false, None)
  | (_, None) :: _ => Ok (false, None)
  | (nd, Some s) :: _ =>
      match nd with
      | XFault _ _ => Ok (false, None)
      | XCall _ args => Ok (edge_match (find_index (zlen args) s))
      | XResponse _ => Ok (false, None)
      | XArray l _ _ => Ok (edge_match (find_index (zlen l) s))
      | XStruct _ _ _ => Err RuntimeError
      | XName k => Ok (edge_match (find_name k s))
      end
  end.

(** The visitor [build] of [build_node] (frpctreebuilder.cc 474-512): put the value [v] where the top of the path says.
    Returns how it was linked. *)
Definition ext_put (path : list pnode) (v : value) : list pnode * res link :=
  match path with
  | [] => ([], UB)
  | (nd, s) :: r =>
      match nd with
      | XFault _ _ => (path, Err RuntimeError)
      | XCall n args => ((XCall n (args ++ [v]), s) :: r, Ok LItem)
      | XResponse None => ((XResponse (Some v), s) :: r, Ok LItem)
      | XResponse (Some _) => (path, Err RuntimeError)
      | XArray l h b => ((XArray (l ++ [v]) h b, s) :: r, Ok LItem)
      | XStruct _ _ _ => (path, Ok LDrop)
      | XName k =>
          match r with
          | (XStruct m h b, s') :: r' =>
              match struct_append k v m with
              | Ok m' => ((XStruct m' h b, s') :: r', Ok (LMember k))
              | Err e => (r, Err e)
              | UB => (r, UB)
              end
          | _ => (r, Err RuntimeError)
          end
      end
  end.

(** [pool.Secret(v)] where the pointers ask for it (frpctreebuilder.cc 466-519). *)
Definition wrap (secret : bool) (v : value) : value := if secret then VSecret v else v.

(** The exception or undefined behaviour of a result (auxiliary). *)
Definition to_fail {A} (r : res A) : option fail :=
  match r with Ok _ => None | Err e => Some (Exn e) | UB => Some Undef end.

(** Assignment to the path. *)
Definition set_path (x : ext) (p : list pnode) : ext := mkExt p (x_tree x).

(** [build_node] (frpctreebuilder.cc 466-519) for a scalar. *)
Definition ext_value (x : ext) (v : value) : ext * option fail :=
  match match_secret (x_path x) with
  | Ok (sec, _) => let '(p, r) := ext_put (x_path x) (wrap sec v) in (set_path x p, to_fail r)
  | Err e => (x, Some (Exn e))
  | UB => (x, Some Undef)
  end.

(** [build_node] for an array or a struct: the same linking checks, then the push (frpctreebuilder.cc 514-518).  Only the
    member name is removed from the path now; the container itself is put there by [ext_close]. *)
Definition ext_open (x : ext) (mk : link -> bool -> xnode) (empty : value) : ext * option fail :=
  match match_secret (x_path x) with
  | Ok (sec, next) =>
      let '(p, r) := ext_put (x_path x) (wrap sec empty) in
      match r with
      | Ok how =>
          let parent := match how with LMember _ => tl (x_path x) | _ => x_path x end in
          (set_path x ((mk how sec, next) :: parent), None)
      | Err e => (set_path x p, Some (Exn e))
      | UB => (x, Some Undef)
      end
  | Err e => (x, Some (Exn e))
  | UB => (x, Some Undef)
  end.

(** Link a finished container into the path below it. *)
Definition ext_link (how : link) (path : list pnode) (v : value) : list pnode :=
  match how with
  | LDrop => path
  | LItem => fst (ext_put path v)
  | LMember k => fst (ext_put ((XName k, None) :: path) v)
  end.

(** [pop<Array_t *>] / [pop<Struct_t *>] (frpctreebuilder.cc 530-534, 708-718). *)
Definition ext_close_array (x : ext) : ext * option fail :=
  match x_path x with
  | (XArray l how sec, _) :: r => (set_path x (ext_link how r (wrap sec (VArray l))), None)
  | _ => (x, Some (Exn RuntimeError))
  end.
Definition ext_close_struct (x : ext) : ext * option fail :=
  match x_path x with
  | (XStruct m how sec, _) :: r => (set_path x (ext_link how r (wrap sec (VStruct m))), None)
  | _ => (x, Some (Exn RuntimeError))
  end.

(** [start] (frpctreebuilder.cc 543-568): only on an empty path. *)
Definition ext_start (x : ext) (n : pnode) : ext * option fail :=
  match x_path x with
  | [] => (set_path x [n], None)
  | _ => (x, Some (Exn RuntimeError))
  end.

(** All builder calls (frpctreebuilder.cc 670-735). *)
Definition ext_step (validate : option mktime_t) (x : ext) (e : event) : ext * option fail :=
  match e with
  | EInt z => ext_value x (VInt z)
  | EBool b => ext_value x (VBool b)
  | ENull => ext_value x VNull
  | EDouble d => ext_value x (VDouble d)
  | EString s => ext_value x (VString s)
  | EBinary s => ext_value x (VBinary s)
  | EDateTime d => ext_value x (VDateTime (make_datetime validate d))
  | EOpenStruct _ => ext_open x (XStruct []) (VStruct [])
  | EOpenArray _ => ext_open x (XArray []) (VArray [])
  | ECloseStruct => ext_close_struct x
  | ECloseArray => ext_close_array x
  | EMember k =>
      match x_path x with
      | [] => (x, Some Undef)
      | (_, s) :: _ => (set_path x ((XName k, s) :: x_path x), None)
      end
  | EMethodCall k => ext_start x (XCall k [], Some (x_tree x))
  | EMethodResponse => ext_start x (XResponse None, Some (x_tree x))
  | EFault c msg => (set_path x [(XFault c msg, None)], None)
  end.

(** Close all open containers to see what the bottom node holds. *)
Fixpoint ext_plug (fuel : nat) (path : list pnode) : list pnode :=
  match fuel with
  | O => path
  | S f =>
      match path with
      | (XName _, _) :: r => ext_plug f r
      | (XArray l how sec, _) :: r => ext_plug f (ext_link how r (wrap sec (VArray l)))
      | (XStruct m how sec, _) :: r => ext_plug f (ext_link how r (wrap sec (VStruct m)))
      | _ => path
      end
  end.

(** The first node of the path (frpctreebuilder.cc 737-751 read what it holds). *)
Definition bottom (x : ext) : option xnode :=
  match rev (ext_plug (length (x_path x)) (x_path x)) with
  | [] => None
  | (n, _) :: _ => Some n
  end.

(** [getMethodCall], [getMethodResponse], [getFault] (frpctreebuilder.cc 737-751). *)
Definition ext_method_call (x : ext) : res (bytes * list value) :=
  match bottom x with
  | Some (XCall n args) => Ok (n, args)
  | _ => Err (FrpcError "unmarshalled method call not found")
  end.
Definition ext_method_response (x : ext) : res (option value) :=
  match bottom x with
  | Some (XResponse v) => Ok v
  | _ => Err (FrpcError "unmarshalled method response not found")
  end.
Definition ext_fault (x : ext) : option (Z * bytes) :=
  match bottom x with
  | Some (XFault c m) => Some (c, m)
  | _ => None
  end.
