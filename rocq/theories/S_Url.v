(** Specification of percent encoding and of URL encoded calls. *)
From Verif Require Import Base Value M_BinUnmarshal M_TreeBuilder.

(** Hexadecimal digits. *)
Definition hexval (c : byte) : option Z :=
  let z := b2z c in
  if (48 <=? z) && (z <=? 57) then Some (z - 48)
  else if (97 <=? z) && (z <=? 102) then Some (z - 97 + 10)
  else if (65 <=? z) && (z <=? 70) then Some (z - 65 + 10)
  else None.

(** [pct s t]: the text [t] encodes the bytes [s]; any byte may be written as %XX, a space also
    as '+', and every byte but '%' and '+' as itself. *)
Inductive pct : bytes -> bytes -> Prop :=
| pct_nil : pct [] []
| pct_lit : forall c s t, b2z c <> 37 -> b2z c <> 43 -> pct s t -> pct (c :: s) (c :: t)
| pct_plus : forall s t, pct s t -> pct (x20 :: s) (x2b :: t)
| pct_hex : forall c h l s t, hexval h = Some (b2z c / 16) -> hexval l = Some (b2z c mod 16) ->
    pct s t -> pct (c :: s) (x25 :: h :: l :: t).

(** The values of a URL encoded call. *)
Inductive uval : Type :=
| UString (s : bytes)
| UBool (b : bool)
| UNull
| UInt (digits : bytes)
| UDouble (text : bytes) (bits : Z)
| UDate (y mo d h mi sec tzh tzm : Z) (west : bool).

(** Decimal columns. *)
Definition col2 (n : Z) : bytes := [z2b (48 + n / 10); z2b (48 + n mod 10)].
Definition col4 (n : Z) : bytes := col2 (n / 100) ++ col2 (n mod 100).

(** Their text before percent encoding: strings in quotes with '\' before quotes and backslashes. *)
Definition escape (s : bytes) : bytes :=
  flat_map (fun c => if (b2z c =? 92) || (b2z c =? 34) then [x5c; c] else [c]) s.
Definition uval_text (v : uval) : bytes :=
  match v with
  | UString s => [x22] ++ escape s ++ [x22]
  | UBool true => str "true"
  | UBool false => str "false"
  | UNull => str "null"
  | UInt d => d
  | UDouble t _ => t
  | UDate y mo d h mi s tzh tzm west =>
      col4 y ++ [x2d] ++ col2 mo ++ [x2d] ++ col2 d ++ [x54] ++ col2 h ++ [x3a] ++ col2 mi ++ [x3a] ++ col2 s
      ++ [if west then x2d else x2b] ++ col2 tzh ++ col2 tzm
  end.

Definition is_dec (c : byte) : Prop := 48 <= b2z c <= 57.
(** Value of decimal digits. *)
Fixpoint dec_value (acc : Z) (s : bytes) : Z :=
  match s with
  | [] => acc
  | c :: r => dec_value (10 * acc + (b2z c - 48)) r
  end.

(** Integers are digits, below 2^63.  Doubles begin with a digit, contain a '.' but no backslash, 'T' or zero byte,
    and are read by [strtod] without a range error. *)
Definition uval_ok (strtod : bytes -> option Z * bool) (v : uval) : Prop :=
  match v with
  | UInt d => d <> [] /\ Forall is_dec d /\ dec_value 0 d < 2 ^ 63
  | UDouble t bits =>
      (exists c r, t = c :: r /\ is_dec c) /\ In x2e t
      /\ Forall (fun c => b2z c <> 92 /\ b2z c <> 84 /\ b2z c <> 0) t /\ strtod t = (Some bits, false)
  | UDate y mo d h mi s tzh tzm _ =>
      0 <= y <= 9999 /\ Forall (fun n => 0 <= n <= 99) [mo; d; h; mi; s; tzh; tzm]
  | _ => True
  end.

Definition uval_value (v : uval) : value :=
  match v with
  | UString s => VString s
  | UBool b => VBool b
  | UNull => VNull
  | UInt d => VInt (dec_value 0 d)
  | UDouble _ b => VDouble b
  | UDate y mo d h mi s tzh tzm west =>
      VDateTime (mkDT y mo d h mi s (-1) (-1) ((tzh * 60 + tzm) * (if west then 60 else - 60)))
  end.

(** A segment name=value of the query. *)
Definition brackets : bytes := [x5b; x5d].
Definition segment_of (strtod : bytes -> option Z * bool) (p : bytes * uval) (seg : bytes) : Prop :=
  exists enc, seg = fst p ++ [x3d] ++ enc /\ pct (uval_text (snd p)) enc /\ uval_ok strtod (snd p)
    /\ (forall c, In c (fst p) -> b2z c <> 38 /\ b2z c <> 61) /\ (forall c, In c enc -> b2z c <> 38)
    /\ blen (fst p) <= 255.

Fixpoint join (sep : bytes) (l : list bytes) : bytes :=
  match l with
  | [] => []
  | [x] => x
  | x :: r => x ++ sep ++ join sep r
  end.

(** All values given under a name, in order. *)
Definition values_named (k : bytes) (pairs : list (bytes * uval)) : list value :=
  map (fun p => uval_value (snd p)) (filter (fun p => bytes_eqb k (fst p)) pairs).

(** Does a name end with "[]"? *)
Definition bracketed (k : bytes) : Prop := exists n, k = n ++ brackets.

(** What the call's struct must have as member [k]: the array of everything given as "k[]", else the
    first value given as "k" (a name ending with "[]" is never taken literally). *)
Inductive member_spec (pairs : list (bytes * uval)) (k : bytes) : option value -> Prop :=
| ms_array : values_named (k ++ brackets) pairs <> [] ->
    member_spec pairs k (Some (VArray (values_named (k ++ brackets) pairs)))
| ms_first : forall v r, values_named (k ++ brackets) pairs = [] -> ~ bracketed k ->
    values_named k pairs = v :: r -> member_spec pairs k (Some v)
| ms_none : values_named (k ++ brackets) pairs = [] -> bracketed k \/ values_named k pairs = [] ->
    member_spec pairs k None.

(** The method a path "/a/b" names: "a.b". *)
Definition dotted (p : bytes) : bytes := map (fun c => if Byte.eqb c x2f then x2e else c) p.

(** A text in which the last character is a '%' that begins an escape: behind single characters other than '%' and escapes of
    '%' and two more characters. *)
Inductive dangling : bytes -> Prop :=
| dangling_end : dangling [x25]
| dangling_char : forall c t, b2z c <> 37 -> dangling t -> dangling (c :: t)
| dangling_escape : forall a b t, dangling t -> dangling (x25 :: a :: b :: t).

(** A form one of whose fields has such a text as its value. *)
Definition bad_form (body : bytes) : Prop :=
  exists before name value after, body = before ++ name ++ x3d :: value ++ after /\
    (before = [] \/ exists b, before = b ++ [x26]) /\ (after = [] \/ exists a, after = x26 :: a) /\
    ~ In x26 name /\ ~ In x3d name /\ ~ In x26 value /\ dangling value.
