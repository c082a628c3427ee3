(** Model of src/frpcjsonmarshaller.cc. *)
From Verif Require Import Base Value Text M_Marshal M_Base64 M_Dump.

(** [iscntrl] of the C locale (glibc: false for negative [char]s). *)
Definition is_cntrl (c : byte) : bool := (b2z c <? 32) || (b2z c =? 127).

(** [escape] (frpcjsonmarshaller.cc 82-90): "\u" and the character code in hexadecimal, filled with '0' to four columns.  Only
    called for codes below 128. *)
Definition escape_u (c : byte) : bytes := [x5c; x75; x30; x30] ++ hex2 c.

(** One character of [quote] (frpcjsonmarshaller.cc 92-120). *)
Definition quote_char (c : byte) : bytes :=
  if b2z c =? 34 then [x5c; x22]
  else if b2z c =? 92 then [x5c; x5c]
  else if b2z c =? 13 then [x5c; x72]
  else if b2z c =? 10 then [x5c; x6e]
  else if b2z c =? 9 then [x5c; x74]
  else if is_cntrl c then escape_u c
  else [c].
Definition json_quote (s : bytes) : bytes := [x22] ++ flat_map quote_char s ++ [x22].

(** The context stack (frpcjsonmarshaller.h 91, 94): closing character and number of items to come. *)
Definition jctx := list (byte * Z).

(** [dec] (frpcjsonmarshaller.cc 64-80); the result is the text written and the new stack. *)
Fixpoint jdec (ctx : jctx) : bytes * jctx :=
  match ctx with
  | [] => ([], [])
  | (k, n) :: r =>
      if (n =? 0) || (n =? 1) then let '(o, c) := jdec r in (k :: o, c)
      else ([x2c], (k, n - 1) :: r)
  end.

(** A written text followed by [dec]. *)
Definition jvalue (t : bytes) (ctx : jctx) : res (bytes * jctx) :=
  let '(o, c) := jdec ctx in Ok (t ++ o, c).

Section Json.
  (** [os << std::setprecision(17) << double] for finite numbers. *)
  Variable show_finite : Z -> bytes.

  (** ... and as libstdc++ does it for all bit patterns: exponent 2047 is an infinity or not a number. *)
  Definition show_double (bits : Z) : bytes :=
    if (bits / 2 ^ 52) mod 2048 =? 2047 then
      (if 2 ^ 63 <=? bits then str "-" else []) ++ (if bits mod 2 ^ 52 =? 0 then str "inf" else str "nan")
    else show_finite bits.

  (** The marshaller's methods (frpcjsonmarshaller.cc 137-244). *)
  Definition json_call (ctx : jctx) (c : mcall) : res (bytes * jctx) :=
    match c with
    | PMethodCall _ => Err (FrpcError "JSON marshaller don't support method calls")
    | PMethodResponse => Ok ([], ctx)
    | PFault n msg =>
        Ok (str "{ ""failure"": " ++ dec_signed n ++ str ", ""failureMessage"": " ++ json_quote msg ++ str " }", ctx)
    | PArray n => if n =? 0 then jvalue (str "[]") ctx else Ok (str "[", (x5d, n) :: ctx)
    | PStruct n => if n =? 0 then jvalue (str "{}") ctx else Ok (str "{", (x7d, n) :: ctx)
    | PMember k => Ok (json_quote k ++ str ":", ctx)
    | PBinary s => jvalue ([x22] ++ write_encode_base64 false [s] ++ [x22]) ctx
    | PBinaryRef _ cs => jvalue ([x22] ++ write_encode_base64 false cs ++ [x22]) ctx
    | PBool b => jvalue (if b then str "true" else str "false") ctx
    | PDouble d => jvalue (show_double d) ctx
    | PInt z => jvalue (dec_signed z) ctx
    | PString s => jvalue (json_quote s) ctx
    | PDateTime d => jvalue (dec_signed (dt_unix d)) ctx
    | PNull => jvalue (str "null") ctx
    end.

  (** A series of calls of these methods. *)
  Fixpoint json_calls (ctx : jctx) (l : list mcall) : res (bytes * jctx) :=
    match l with
    | [] => Ok ([], ctx)
    | c :: r =>
        bind (json_call ctx c) (fun x => let '(o, ctx1) := x in
        bind (json_calls ctx1 r) (fun y => let '(o2, ctx2) := y in Ok (o ++ o2, ctx2)))
    end.

  (** [flush] (frpcjsonmarshaller.cc 132-135) with [fuel] rounds of [while (!dec(ctx, writer))]: [dec] tells whether the stack is
      empty. *)
  Fixpoint json_flush (fuel : nat) (ctx : jctx) : bytes :=
    match fuel with
    | O => []
    | S f => let '(o, c) := jdec ctx in
             match c with [] => o | _ => o ++ json_flush f c end
    end.

  (** Rounds that suffice: every round takes an item from the count or closes a container. *)
  Definition flush_rounds (ctx : jctx) : nat :=
    S (List.length ctx + fold_right (fun kn a => Z.to_nat (snd kn) + a)%nat O ctx).

  (** The text a fresh marshaller writes for a series of calls and [flush]. *)
  Definition json_output (l : list mcall) : res bytes :=
    bind (json_calls [] l) (fun x => let '(o, ctx) := x in Ok (o ++ json_flush (flush_rounds ctx) ctx)).
End Json.
