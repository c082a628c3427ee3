(** Model of [TreeBuilder_t]: src/frpctreebuilder.h 58-140, src/frpctreebuilder.cc 200-373, with the
    value constructors it uses (frpcdatetime.cc 45-67, frpcstruct.cc 119-132, frpcarray.cc). *)
From Verif Require Import Base Value M_Marshal M_BinUnmarshal.

(** [mktime]/[localtime_r] of the host: from the broken-down fields to (time_t, day of week). *)
Definition mktime_t := Z -> Z -> Z -> Z -> Z -> Z -> Z * Z.

(** The 9-argument [DateTime_t] constructor (frpcdatetime.cc 45-67).  With date-time validation on (the
    default, frpcconfig.cc 51) the given unix time and day of week are replaced by
    what the host computes from the other fields in local time. *)
Definition make_datetime (validate : option mktime_t) (d : datetime) : datetime :=
  match validate with
  | None => d
  | Some mk =>
      let '(t, w) := mk (dt_year d) (dt_month d) (dt_day d) (dt_hour d) (dt_min d) (dt_sec d) in
      mkDT (dt_year d) (dt_month d) (dt_day d) (dt_hour d) (dt_min d) (dt_sec d) (s8 w) t (dt_tz d)
  end.

(** An open container: what it holds so far and the member name it was stored under in its
    parent (used only if the parent is a struct).  In the code a container is linked into its
    parent when it is opened and filled through a pointer; the parent is not touched until the
    container is closed, so linking it at close time (and in [plug]) is equivalent. *)
Inductive fbody : Type :=
| BArr (l : list value)
| BStruct (m : list (bytes * value)).

(** An element of [entityStorage] (frpctreebuilder.h 145) with the member name pending in it. *)
Record frame : Type := mkFrame { f_key : bytes; f_body : fbody }.

(** What [retValue] points to: nothing, a finished value, or the container at the bottom
    of [tb_stack]. *)
Inductive root : Type := RNone | RDone (v : value) | RBottom.

(** The object (frpctreebuilder.h 138-145). *)
Record tb : Type := mkTB {
  tb_stack : list frame;     (* entityStorage, top first, down to the container that is in no other one *)
  tb_root : root;            (* retValue *)
  tb_first : bool;
  tb_member : bytes;         (* memberName *)
  tb_method : bytes;         (* methodName *)
  tb_errnum : Z;
  tb_errmsg : bytes;
  tb_under : list (list frame)  (* the containers below that, where buildMethodCall came while they were open *)
}.

(** Constructor (frpctreebuilder.h 61-63). *)
Definition tb_init : tb := mkTB [] RNone true [] [] (-500) [] [].

(** Assignment to one member. *)
Definition tb_set_stack (s : list frame) (t : tb) : tb :=
  mkTB s (tb_root t) (tb_first t) (tb_member t) (tb_method t) (tb_errnum t) (tb_errmsg t) (tb_under t).

(** The value of a container that is complete (frpctreebuilder.cc 200-373). *)
Definition body_value (b : fbody) : value :=
  match b with BArr l => VArray l | BStruct m => VStruct m end.

(** [isMember] on the container [f] (frpctreebuilder.h 97-114). *)
Definition frame_add (key : bytes) (v : value) (f : frame) : res frame :=
  match f_body f with
  | BArr l => Ok (mkFrame (f_key f) (BArr (l ++ [v])))
  | BStruct m => bind (struct_append key v m) (fun m' => Ok (mkFrame (f_key f) (BStruct m')))
  end.

(** The exception of [isFirst]/[isMember] after the end of the value (frpctreebuilder.h 89-114). *)
Definition unexpected : option fail := Some (Exn (StreamError "Unexpected value after end")).

(** build* of a scalar: [isMember], then [isFirst], else StreamError. *)
Definition tb_value (t : tb) (v : value) : tb * option fail :=
  match tb_stack t with
  | f :: r =>
      match frame_add (tb_member t) v f with
      | Ok f' => (tb_set_stack (f' :: r) t, None)
      | Err e => (t, Some (Exn e))
      | UB => (t, Some Undef)
      end
  | [] =>
      if tb_first t then
        (mkTB [] (RDone v) false (tb_member t) (tb_method t) (tb_errnum t) (tb_errmsg t) (tb_under t), None)
      else (t, unexpected)
  end.

(** [openArray], [openStruct]: link the new container, then push it. *)
Definition tb_open (t : tb) (b : fbody) : tb * option fail :=
  match tb_stack t with
  | f :: r =>
      match frame_add (tb_member t) (body_value b) f with
      | Ok _ => (tb_set_stack (mkFrame (tb_member t) b :: f :: r) t, None)
      | Err e => (t, Some (Exn e))
      | UB => (t, Some Undef)
      end
  | [] =>
      if tb_first t then
        (mkTB [mkFrame (tb_member t) b] RBottom false (tb_member t) (tb_method t)
              (tb_errnum t) (tb_errmsg t) (tb_under t), None)
      else (t, unexpected)
  end.

(** [closeArray], [closeStruct]: [entityStorage.pop_back()], undefined on an empty vector. *)
Definition tb_close (t : tb) : tb * option fail :=
  match tb_stack t with
  | [] => (t, Some Undef)
  | [f] =>
      (mkTB (hd [] (tb_under t)) (match tb_root t with RBottom => RDone (body_value (f_body f)) | r => r end)
            (tb_first t) (tb_member t) (tb_method t) (tb_errnum t) (tb_errmsg t) (tl (tb_under t)), None)
  | f :: p :: r =>
      match frame_add (f_key f) (body_value (f_body f)) p with
      | Ok p' => (tb_set_stack (p' :: r) t, None)
      | Err e => (t, Some (Exn e))
      | UB => (t, Some Undef)
      end
  end.

(** All builder calls.  [buildMethodCall] pushes an array that is in no other container: the binary and the URL
    unmarshaller issue it first, the XML unmarshaller also while containers are open, as in <array><methodName>. *)
Definition tb_step (validate : option mktime_t) (t : tb) (e : event) : tb * option fail :=
  match e with
  | EInt z => tb_value t (VInt z)
  | EBool b => tb_value t (VBool b)
  | ENull => tb_value t VNull
  | EDouble d => tb_value t (VDouble d)
  | EString s => tb_value t (VString s)
  | EBinary s => tb_value t (VBinary s)
  | EDateTime d => tb_value t (VDateTime (make_datetime validate d))
  | EOpenStruct _ => tb_open t (BStruct [])
  | EOpenArray _ => tb_open t (BArr [])
  | ECloseStruct | ECloseArray => tb_close t
  | EMember k =>
      (mkTB (tb_stack t) (tb_root t) (tb_first t) k (tb_method t) (tb_errnum t) (tb_errmsg t) (tb_under t), None)
  | EMethodCall k =>
      (mkTB [mkFrame [] (BArr [])] RBottom true (tb_member t) k (tb_errnum t) (tb_errmsg t)
            (match tb_stack t with [] => tb_under t | s => s :: tb_under t end), None)
  | EMethodResponse => (t, None)
  | EFault n msg =>
      (mkTB (tb_stack t) RNone true (tb_member t) (tb_method t) n msg (tb_under t), None)
  end.

(** Close all open containers to see the tree [retValue] points to. *)
Fixpoint plug (v : value) (key : bytes) (fs : list frame) : res value :=
  match fs with
  | [] => Ok v
  | f :: r =>
      bind (frame_add key v f) (fun f' => plug (body_value (f_body f')) (f_key f) r)
  end.

(** [getUnMarshaledData] (frpctreebuilder.h 116-121) with the error number and message
    accessors (127-135). *)
Definition tb_data (t : tb) : res value :=
  match tb_root t with
  | RNone =>
      Err (FaultExn (tb_errnum t)
             (match tb_errmsg t with [] => str "No data unmarshalled" | m => m end))
  | RDone v => Ok v
  | RBottom =>
      match tb_stack t with
      | [] => UB
      | f :: r => plug (body_value (f_body f)) (f_key f) r
      end
  end.
