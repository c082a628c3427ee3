(** Model of src/frpcxmlmarshaller.cc, src/frpcxmlmarshaller.h and src/frpcxmlunmarshaller.cc (the SAX
    handlers; libxml2 itself is not modelled, S_Xml.v states what is expected of it). *)
From Verif Require Import Base Value Text M_Marshal M_BinUnmarshal M_TreeBuilder M_Base64 M_Dump M_Json M_Iso M_Url.

(** * Marshaller *)
(** [writeQuotedString] (frpcxmlmarshaller.cc 552-572). *)
Definition xquote_char (c : byte) : bytes :=
  if is_char 60 c then str "&lt;"
  else if is_char 62 c then str "&gt;"
  else if is_char 34 c then str "&quot;"
  else if is_char 38 c then str "&amp;"
  else [c].
Definition xquote (s : bytes) : bytes := flat_map xquote_char s.

(** [entityStorage]: kind and number of items to come ([unsigned int]).  [level] only drives indentation, which is
    compiled out (frpcxmlmarshaller.h 97-108). *)
Inductive xkind : Type := XK_array | XK_struct | XK_fault.
Definition xstack := list (xkind * Z).

(** The line feed written after most tags (frpcxmlmarshaller.cc 60-473). *)
Definition nl : bytes := [x0a].

(** [decrementItem] (frpcxmlmarshaller.h 110-165). *)
Definition x_member_end (k : xkind) : bytes := match k with XK_struct => str "</member>" ++ nl | _ => [] end.
Definition x_close (k : xkind) : bytes :=
  match k with
  | XK_array => str "</data>" ++ nl ++ str "</array>" ++ nl ++ str "</value>" ++ nl
  | XK_struct => str "</struct>" ++ nl ++ str "</value>" ++ nl
  | XK_fault => []
  end.
Definition x_param_end (r : xstack) : bytes := match r with [] => str "</param>" ++ nl | _ => [] end.
Definition x_param_begin (r : xstack) : bytes := match r with [] => str "<param>" ++ nl | _ => [] end.
Fixpoint xdec (st : xstack) : bytes * xstack :=
  match st with
  | [] => ([], [])
  | (k, n) :: r =>
      let m := u32 (n - 1) in
      if m =? 0 then
        let '(o, c) := xdec r in (x_member_end k ++ x_close k ++ x_param_end r ++ o, c)
      else (x_member_end k, (k, m) :: r)
  end.

(** [mainType]: what [flush] closes. *)
Inductive xmain : Type := XM_none | XM_call | XM_response | XM_fault.

(** The members of the marshaller that matter: [entityStorage], [mainType] (frpcxmlmarshaller.h 161-164). *)
Record xms : Type := mkXms { xm_stack : xstack; xm_main : xmain }.
Definition xms_init : xms := mkXms [] XM_none.

(** What one method writes, the new state and the exception, if any. *)
Definition xout := (bytes * xms * option fail)%type.

(** A scalar value or an empty container: the text in "<param>" tags at top level, then [decrementItem]. *)
Definition xvalue (t : bytes) (s : xms) : xout :=
  let '(o, c) := xdec (xm_stack s) in
  (x_param_begin (xm_stack s) ++ t ++ x_param_end (xm_stack s) ++ o, mkXms c (xm_main s), None).

(** "<value><tag>text</tag></value>\n" *)
Definition x_tagged (tag : string) (t : bytes) : bytes :=
  str "<value><" ++ str tag ++ str ">" ++ t ++ str "</" ++ str tag ++ str "></value>" ++ nl.

(** What [packArray] and [packStruct] begin with (frpcxmlmarshaller.cc 60-97, 384-413). *)
Definition x_array_begin : bytes := str "<value>" ++ nl ++ str "<array>" ++ nl ++ str "<data>" ++ nl.
Definition x_struct_begin : bytes := str "<value>" ++ nl ++ str "<struct>" ++ nl.

(** [packMagic] (frpcxmlmarshaller.cc 458-473). *)
Definition x_magic (v : version) : bytes :=
  str "<?xml version=""1.0""?>" ++ nl ++
  (if v_major v <? 2 then []
   else if (v_major v =? 2) && (v_minor v =? 0) then str "<!--protocolVersion=""2.0""-->" ++ nl
   else str "<!--protocolVersion=""2.1""-->" ++ nl).

Section Marshaller.
  (** [os << std::setprecision(17) << double] for finite numbers. *)
  Variable show_finite : Z -> bytes.
  Variable ver : version.

  (** [packInt] (frpcxmlmarshaller.cc 280-318): [-value] overflows for the smallest integer. *)
  Definition x_int (z : Z) (s : xms) : xout :=
    if z =? - 2 ^ 63 then (x_param_begin (xm_stack s), s, Some Undef)
    else
      let a := if z <? 0 then - z else z in
      if Z.land a (mask 31) =? 0 then xvalue (x_tagged "i4" (dec_signed z)) s
      else if v_major ver <? 2 then
        (x_param_begin (xm_stack s), s, Some (Exn (StreamError "Number is too big for protocol version 1.0")))
      else xvalue (x_tagged "i8" (dec_signed z)) s.

  (** [packStruct] (frpcxmlmarshaller.cc 384-413), [packArray] (frpcxmlmarshaller.cc 60-97). *)
  Definition x_container (k : xkind) (begin : bytes) (n : Z) (s : xms) : xout :=
    if n =? 0 then xvalue (begin ++ x_close k) s
    else (x_param_begin (xm_stack s) ++ begin, mkXms ((k, n) :: xm_stack s) (xm_main s), None).

  (** [packStructMember] (frpcxmlmarshaller.cc 415-432). *)
  Definition x_member (k : bytes) (s : xms) : xout :=
    if (255 <? blen k) || (blen k =? 0) then ([], s, Some (Exn LenError))
    else (str "<member>" ++ nl ++ str "<name>" ++ xquote k ++ str "</name>" ++ nl, s, None).

  (** One thing written after the other; the first exception ends it. *)
  Definition xseq (a : xout) (f : xms -> xout) : xout :=
    match a with
    | (o, s, None) => let '(o', s', e) := f s in (o ++ o', s', e)
    | _ => a
    end.

  (** The marshaller's methods (frpcxmlmarshaller.cc 60-432). *)
  Definition xml_call (s : xms) (c : mcall) : xout :=
    match c with
    | PArray n => x_container XK_array x_array_begin n s
    | PStruct n => x_container XK_struct x_struct_begin n s
    | PMember k => x_member k s
    | PBinary d => xvalue (x_tagged "base64" (write_encode_base64 true [d])) s
    | PBinaryRef _ cs => xvalue (x_tagged "base64" (write_encode_base64 true cs)) s
    | PBool b => xvalue (x_tagged "boolean" (if b then str "1" else str "0")) s
    | PNull => xvalue (str "<value><nil/></value>" ++ nl) s
    | PDateTime d =>
        xvalue (x_tagged "dateTime.iso8601"
                  (iso_text (dt_year d) (dt_month d) (dt_day d) (dt_hour d) (dt_min d) (dt_sec d) (dt_tz d))) s
    | PDouble d => xvalue (x_tagged "double" (show_double show_finite d)) s
    | PInt z => x_int z s
    | PString t => xvalue (x_tagged "string" (xquote t)) s
    | PMethodCall k =>
        if (255 <? blen k) || (blen k =? 0) then ([], s, Some (Exn LenError))
        else (x_magic ver ++ str "<methodCall>" ++ nl ++ str "<methodName>" ++ xquote k ++ str "</methodName>" ++ nl
                ++ str "<params>" ++ nl, mkXms (xm_stack s) XM_call, None)
    | PMethodResponse =>
        (x_magic ver ++ str "<methodResponse>" ++ nl ++ str "<params>" ++ nl, mkXms (xm_stack s) XM_response, None)
    | PFault n msg =>
        xseq (x_magic ver ++ str "<methodResponse>" ++ nl ++ str "<fault>" ++ nl,
              mkXms ((XK_fault, 0) :: xm_stack s) (xm_main s), None) (fun s =>
        xseq (x_container XK_struct x_struct_begin 2 s) (fun s =>
        xseq (x_member (str "faultCode") s) (fun s =>
        xseq (x_int n s) (fun s =>
        xseq (x_member (str "faultString") s) (fun s =>
        xseq (xvalue (x_tagged "string" (xquote msg)) s) (fun s =>
          (str "</fault>" ++ nl ++ str "</methodResponse>" ++ nl, mkXms (xm_stack s) XM_fault, None)))))))
    end.

  (** A series of calls of these methods. *)
  Fixpoint xml_calls (s : xms) (l : list mcall) : xout :=
    match l with
    | [] => ([], s, None)
    | c :: r => xseq (xml_call s c) (fun s => xml_calls s r)
    end.

  (** [flush] (frpcxmlmarshaller.cc 433-455) clears the stack. *)
  Definition xml_flush (s : xms) : bytes :=
    match xm_main s with
    | XM_call => str "</params>" ++ nl ++ str "</methodCall>" ++ nl
    | XM_response => str "</params>" ++ nl ++ str "</methodResponse>" ++ nl
    | _ => []
    end.

  (** A new marshaller (constructor check frpcxmlmarshaller.cc 46-54), a series of calls and [flush]. *)
  Definition xml_output (l : list mcall) : res bytes :=
    if 3 <? v_major ver then Err (FrpcError "Not supported protocol version")
    else
      match xml_calls xms_init l with
      | (o, s, None) => Ok (o ++ xml_flush s)
      | (_, _, Some (Exn e)) => Err e
      | (_, _, Some Undef) => UB
      end.
End Marshaller.

(** * Unmarshaller *)
(** The callbacks of libxml2. *)
Inductive sax : Type :=
| SStart (name : bytes)
| SEnd (name : bytes)
| SChars (s : bytes).

(** Types of frpcinternals.h 73-91 an element name can denote. *)
Inductive xtype : Type :=
| X_NONE | X_INT | X_BOOL | X_DOUBLE | X_STRING | X_DATETIME | X_BINARY | X_NULL
| X_STRUCT | X_ARRAY | X_METHOD_CALL | X_METHOD_RESPONSE | X_FAULT | X_METHOD_NAME | X_MEMBER_NAME.

(** [getValueType] (frpcxmlunmarshaller.cc 325-450): the tests on single characters before [strcmp] only select among the
    full comparisons below. *)
Definition xnames : list (bytes * xtype) :=
  [ (str "int", X_INT); (str "i4", X_INT); (str "i8", X_INT); (str "double", X_DOUBLE);
    (str "dateTime.iso8601", X_DATETIME); (str "string", X_STRING); (str "struct", X_STRUCT);
    (str "base64", X_BINARY); (str "boolean", X_BOOL); (str "array", X_ARRAY); (str "name", X_MEMBER_NAME);
    (str "nil", X_NULL); (str "methodName", X_METHOD_NAME); (str "methodCall", X_METHOD_CALL);
    (str "methodResponse", X_METHOD_RESPONSE); (str "fault", X_FAULT); (str "value", X_STRING) ].
Fixpoint lookup_name (n : bytes) (l : list (bytes * xtype)) : xtype :=
  match l with
  | [] => X_NONE
  | (k, t) :: r => if bytes_eqb n k then t else lookup_name n r
  end.
Definition get_value_type (n : bytes) : xtype := lookup_name n xnames.

(** [strtol(s, &end, 10)] and the test of [*end]: [None] if something is left over.  Without digits [end] is the start of
    the text. *)
Fixpoint span_digits (s : bytes) : bytes * bytes :=
  match s with
  | c :: r => if is_digit c then let '(a, b) := span_digits r in (c :: a, b) else ([], s)
  | [] => ([], [])
  end.
Definition strtol_all (s0 : bytes) : option Z :=
  let s := c_str s0 in
  let s1 := skip is_space s in
  let '(neg, s2) := match s1 with
                    | c :: r => if is_char 45 c then (true, r) else if is_char 43 c then (false, r) else (false, s1)
                    | [] => (false, [])
                    end in
  let '(d, rest) := span_digits s2 in
  match d, rest with
  | [], _ => match s with [] => Some 0 | _ => None end
  | _, [] => Some (if neg then - undec d else undec d)
  | _, _ => None
  end.

(** The object (frpcxmlunmarshaller.h 69-94).  [x_exc] is the stored exception ([Undef]: undefined behaviour
    happened). *)
Record xun : Type := mkXun {
  x_type : xtype;        (* internalType *)
  x_main : xtype;        (* mainInternalType *)
  x_fcode : Z;           (* faultCode, long *)
  x_fmsg : bytes;        (* faultString *)
  x_buf : bytes;         (* localBuffer *)
  x_exc : option fail;   (* exception, exErrMsg *)
  x_ver : version;       (* protocolVersion *)
  x_check : bool         (* versionCheck *)
}.
Definition xun_init : xun := mkXun X_NONE X_NONE 0 [] [] None (mkVer 2 1) true.

(** Assignments to single members (frpcxmlunmarshaller.h 69-94). *)
Definition x_with (t m : xtype) (u : xun) : xun :=
  mkXun t m (x_fcode u) (x_fmsg u) (x_buf u) (x_exc u) (x_ver u) (x_check u).
Definition x_set_buf (b : bytes) (u : xun) : xun :=
  mkXun (x_type u) (x_main u) (x_fcode u) (x_fmsg u) b (x_exc u) (x_ver u) (x_check u).
Definition x_set_fault (c : Z) (m : bytes) (u : xun) : xun :=
  mkXun (x_type u) (x_main u) c m (x_buf u) (x_exc u) (x_ver u) (x_check u).
Definition x_set_exc (f : fail) (u : xun) : xun :=
  mkXun (x_type u) (x_main u) (x_fcode u) (x_fmsg u) (x_buf u) (Some f) (x_ver u) (x_check u).
Definition x_set_ver (v : version) (u : xun) : xun :=
  mkXun (x_type u) (x_main u) (x_fcode u) (x_fmsg u) (x_buf u) (x_exc u) v (x_check u).
Definition x_checked (u : xun) : xun :=
  mkXun (x_type u) (x_main u) (x_fcode u) (x_fmsg u) (x_buf u) (x_exc u) (x_ver u) false.

(** Equality of types, as the [switch]es of frpcxmlunmarshaller.cc compare them. *)
Definition xtype_eqb (a b : xtype) : bool :=
  match a, b with
  | X_NONE, X_NONE | X_INT, X_INT | X_BOOL, X_BOOL | X_DOUBLE, X_DOUBLE | X_STRING, X_STRING
  | X_DATETIME, X_DATETIME | X_BINARY, X_BINARY | X_NULL, X_NULL | X_STRUCT, X_STRUCT | X_ARRAY, X_ARRAY
  | X_METHOD_CALL, X_METHOD_CALL | X_METHOD_RESPONSE, X_METHOD_RESPONSE | X_FAULT, X_FAULT
  | X_METHOD_NAME, X_METHOD_NAME | X_MEMBER_NAME, X_MEMBER_NAME => true
  | _, _ => false
  end.

(** The code of a main element, to compare with [wantType] (frpcunmarshaller.h 49-54, frpcinternals.h 86-88). *)
Definition main_code (t : xtype) : Z :=
  match t with
  | X_METHOD_CALL => T_METHOD_CALL
  | X_METHOD_RESPONSE => T_METHOD_RESPONSE
  | X_FAULT => T_FAULT
  | _ => 0
  end.

Section Unmarshaller.
  Context {B : Type}.
  Variable bstep : B -> event -> B * option fail.
  (** [strtod] of a C string: [None] if something is left over. *)
  Variable strtod : bytes -> option Z.
  (** [errno == ERANGE] on entry: the code never clears it. *)
  Variable erange : bool.

  (** The object, its builder, and the exception of a callback if there is one. *)
  Definition xres := (xun * B * option fail)%type.
  (** A builder call, then go on. *)
  Definition x_emit (u : xun) (b : B) (e : event) (k : B -> xres) : xres :=
    match bstep b e with
    | (b', None) => k b'
    | (b', Some f) => (u, b', Some f)
    end.
  Definition x_throw (u : xun) (b : B) (m : string) : xres := (u, b, Some (Exn (StreamError m))).

  (** The pending [buildMethodResponse] (frpcxmlunmarshaller.cc 467-470 and so on). *)
  Definition x_response (u : xun) (b : B) (k : xun -> B -> xres) : xres :=
    if xtype_eqb (x_main u) X_METHOD_RESPONSE
    then x_emit u b EMethodResponse (fun b => k (x_with (x_type u) X_NONE u) b)
    else k u b.

  (** [setValueType] (frpcxmlunmarshaller.cc 454-508). *)
  Definition set_value_type (want : Z) (u : xun) (b : B) (name : bytes) : xres :=
    match get_value_type name with
    | X_STRUCT =>
        x_response u b (fun u b =>
          if xtype_eqb (x_main u) X_FAULT then (u, b, None)
          else x_emit u b (EOpenStruct 0) (fun b => (x_with X_NONE (x_main u) u, b, None)))
    | X_ARRAY =>
        x_response u b (fun u b =>
          x_emit u b (EOpenArray 0) (fun b => (x_with X_NONE (x_main u) u, b, None)))
    | X_FAULT | X_METHOD_CALL | X_METHOD_RESPONSE =>
        let m := get_value_type name in
        let u' := x_with (x_type u) m u in
        if negb (main_code m =? want) && negb (want =? TYPE_ANY)
           && (negb (xtype_eqb m X_FAULT) || negb (want =? T_METHOD_RESPONSE))
        then x_throw u' b "Bad main Type !!!"
        else (u', b, None)
    | t => x_response u b (fun u b => (x_with t (x_main u) u, b, None))
    end.

  (** [internalType = NONE] (frpcxmlunmarshaller.cc 510-608). *)
  Definition x_none (u : xun) : xun := x_with X_NONE (x_main u) u.

  (** [setValueData] (frpcxmlunmarshaller.cc 510-608). *)
  Definition set_value_data (u : xun) (b : B) (data : bytes) : xres :=
    match x_type u with
    | X_METHOD_NAME => x_emit u b (EMethodCall data) (fun b => (x_with X_NONE X_NONE u, b, None))
    | X_MEMBER_NAME =>
        if xtype_eqb (x_main u) X_FAULT then (x_none u, b, None)
        else x_emit u b (EMember data) (fun b => (x_none u, b, None))
    | X_DOUBLE =>
        match strtod (c_str data) with
        | Some d => x_emit u b (EDouble d) (fun b => (x_none u, b, None))
        | None => x_throw u b "Integrity xml Double error !!!"
        end
    | X_INT =>
        match strtol_all data with
        | None => x_throw u b "Integrity xml Int error !!!"
        | Some z =>
            let v := Z.max (- 2 ^ 63) (Z.min (2 ^ 63 - 1) z) in
            if ((v =? - 2 ^ 63) || (v =? 2 ^ 63 - 1)) && (erange || negb (v =? z))
            then x_throw u b "Unsupported size of int (too big) !!!"
            else if xtype_eqb (x_main u) X_FAULT then (x_none (x_set_fault v (x_fmsg u) u), b, None)
            else x_emit u b (EInt v) (fun b => (x_none u, b, None))
        end
    | X_STRING =>
        if xtype_eqb (x_main u) X_FAULT then (x_none (x_set_fault (x_fcode u) data u), b, None)
        else x_emit u b (EString data) (fun b => (x_none u, b, None))
    | X_BINARY => x_emit u b (EBinary (b64_decode data)) (fun b => (x_none u, b, None))
    | X_BOOL =>
        x_emit u b (EBool (match data with c :: _ => is_char 49 c | [] => false end)) (fun b => (x_none u, b, None))
    | X_NULL => x_emit u b ENull (fun b => (x_none u, b, None))
    | X_DATETIME =>
        match parse_iso data with
        | Ok d => x_emit u b (EDateTime d) (fun b => (x_none u, b, None))
        | Err e => (u, b, Some (Exn e))
        | UB => (u, b, Some Undef)
        end
    | _ => (u, b, None)
    end.

  (** [closeEntity] (frpcxmlunmarshaller.cc 609-633). *)
  Definition close_entity (u : xun) (b : B) (name : bytes) : xres :=
    let u := x_none u in
    if xtype_eqb (x_main u) X_FAULT then
      match get_value_type name with
      | X_FAULT => x_emit u b (EFault (s32 (x_fcode u)) (x_fmsg u)) (fun b => (x_set_fault 0 [] u, b, None))
      | _ => (u, b, None)
      end
    else
      match get_value_type name with
      | X_STRUCT => x_emit u b ECloseStruct (fun b => (u, b, None))
      | X_ARRAY => x_emit u b ECloseArray (fun b => (u, b, None))
      | _ => (u, b, None)
      end.

  (** The callbacks (frpcxmlunmarshaller.cc 46-118): nothing after a stored exception; a StreamError is stored with its text, any
      other exception as "Unknown error". *)
  Definition x_caught (r : xres) : xun * B :=
    match r with
    | (u, b, None) => (u, b)
    | (u, b, Some (Exn (StreamError m))) => (x_set_exc (Exn (StreamError m)) u, b)
    | (u, b, Some (Exn _)) => (x_set_exc (Exn (FrpcError "Unknown error")) u, b)
    | (u, b, Some Undef) => (x_set_exc Undef u, b)
    end.
  Definition sax_step (want : Z) (u : xun) (b : B) (e : sax) : xun * B :=
    match x_exc u with
    | Some _ => (u, b)
    | None =>
        match e with
        | SStart n =>
            x_caught (match set_value_type want u b n with
                      | (u, b, None) => (x_set_buf [] u, b, None)
                      | r => r
                      end)
        | SEnd n =>
            x_caught (match set_value_data u b (x_buf u) with
                      | (u, b, None) => close_entity u b n
                      | r => r
                      end)
        | SChars s => (x_set_buf (x_buf u ++ s) u, b)
        end
    end.
  Fixpoint sax_steps (want : Z) (u : xun) (b : B) (l : list sax) : xun * B :=
    match l with
    | [] => (u, b)
    | e :: r => let '(u, b) := sax_step want u b e in sax_steps want u b r
    end.

  (** [std::string::find]. *)
  Fixpoint is_prefix (p s : bytes) : bool :=
    match p, s with
    | [], _ => true
    | a :: p', c :: s' => byte_eqb a c && is_prefix p' s'
    | _ :: _, [] => false
    end.
  Fixpoint find_sub (p s : bytes) : option Z :=
    if is_prefix p s then Some 0
    else match s with
         | [] => None
         | _ :: r => match find_sub p r with Some i => Some (i + 1) | None => None end
         end.

  (** The version in the first 80 bytes of the first piece of text (frpcxmlunmarshaller.cc 280-293); [at] throws std::out_of_range. *)
  Definition version_mark : bytes := str "protocolVersion=""".
  Definition x_sniff (u : xun) (chunk : bytes) : xun * option fail :=
    if negb (blen chunk =? 0) && x_check u then
      let buffer := ztake 80 chunk in
      match find_sub version_mark buffer with
      | Some i =>
          let p := i + blen version_mark in
          if p + 2 <? blen chunk then
            match nth_error buffer (Z.to_nat p) with
            | None => (u, Some (Exn OutOfRange))
            | Some a =>
                let major := u8 (b2z a - 48) in
                match nth_error buffer (Z.to_nat (p + 2)) with
                | None => (x_set_ver (mkVer major (v_minor (x_ver u))) u, Some (Exn OutOfRange))
                | Some c => (x_checked (x_set_ver (mkVer major (u8 (b2z c - 48))) u), None)
                end
            end
          else (x_checked u, None)
      | None => (x_checked u, None)
      end
    else (u, None).

  (** [error_mapping] has 102 entries (frpcxmlunmarshaller.cc 123-227); a code is taken to be one of them if it is below [sizeof(error_mapping)],
      the size in bytes with pointers of 8 bytes (298). *)
  Definition known_code (code : Z) : bool := (0 <=? code) && (code <? 102).
  Definition looked_up (code : Z) : bool := negb ((code <? 0) || (816 <=? code)).

  (** [unMarshall] (frpcxmlunmarshaller.cc 272-321).  [batch] are the callbacks libxml2 makes while it takes [chunk] and [code] is what
      [xmlParseChunk] returns: 0 or the number of an error (the text of the exception is simplified). *)
  Definition x_unmarshall (want : Z) (u : xun) (b : B) (chunk : bytes) (batch : list sax) (code : Z)
    : xun * B * option fail :=
    match x_sniff u chunk with
    | (u, Some f) => (u, b, Some f)
    | (u, None) =>
        let '(u, b) := sax_steps want u b batch in
        match x_exc u with
        | Some Undef => (u, b, Some Undef)
        | e => if code =? 0 then (u, b, e)
               else if looked_up code && negb (known_code code) then (u, b, Some Undef)
               else (u, b, Some (Exn (StreamError "Parser error")))
        end
    end.

  (** [finish] (frpcxmlunmarshaller.cc 262-266): an empty piece; the wanted type is NONE. *)
  Definition x_finish (u : xun) (b : B) (batch : list sax) (code : Z) : xun * B * option fail :=
    match x_unmarshall 0 u b [] batch code with
    | (u, b, None) =>
        if xtype_eqb (x_type u) X_NONE then (u, b, None) else (u, b, Some (Exn (StreamError "Stream not complete")))
    | r => r
    end.

  (** Successive [unMarshall] calls, stopping at the first exception. *)
  Fixpoint x_unmarshall_all (want : Z) (u : xun) (b : B) (l : list (bytes * list sax)) : xun * B * option fail :=
    match l with
    | [] => (u, b, None)
    | (chunk, batch) :: r =>
        match x_unmarshall want u b chunk batch 0 with
        | (u, b, None) => x_unmarshall_all want u b r
        | r => r
        end
    end.
  Definition x_receive (want : Z) (b : B) (l : list (bytes * list sax)) (last : list sax) : xun * B * option fail :=
    match x_unmarshall_all want xun_init b l with
    | (u, b, None) => x_finish u b last 0
    | r => r
    end.
End Unmarshaller.
