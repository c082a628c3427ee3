(** Specification: a JSON reader after RFC 8259. *)
From Verif Require Import Base Value S_Base64.

Inductive jval : Type :=
| JNull
| JBool (b : bool)
| JNum (text : bytes)
| JStr (s : bytes)
| JArr (l : list jval)
| JObj (m : list (bytes * jval)).

Definition js_ws (c : byte) : bool := (b2z c =? 32) || (b2z c =? 9) || (b2z c =? 10) || (b2z c =? 13).
Fixpoint skip_ws (s : bytes) : bytes :=
  match s with
  | c :: r => if js_ws c then skip_ws r else s
  | [] => []
  end.

Definition js_hex (c : byte) : option Z :=
  let z := b2z c in
  if (48 <=? z) && (z <=? 57) then Some (z - 48)
  else if (97 <=? z) && (z <=? 102) then Some (z - 97 + 10)
  else if (65 <=? z) && (z <=? 70) then Some (z - 65 + 10)
  else None.
Definition js_hex4 (a b c d : byte) : option Z :=
  match js_hex a, js_hex b, js_hex c, js_hex d with
  | Some a, Some b, Some c, Some d => Some (((a * 16 + b) * 16 + c) * 16 + d)
  | _, _, _, _ => None
  end.
(** UTF-8 of a code point of the Basic Multilingual Plane; surrogates (which JSON needs in pairs) are
    refused. *)
Definition utf8 (n : Z) : option bytes :=
  if n <? 128 then Some [z2b n]
  else if n <? 2048 then Some [z2b (192 + n / 64); z2b (128 + n mod 64)]
  else if (55296 <=? n) && (n <=? 57343) then None
  else Some [z2b (224 + n / 4096); z2b (128 + n / 64 mod 64); z2b (128 + n mod 64)].

(** The characters after a backslash, "\u" excepted. *)
Definition js_escape (c : byte) : option byte :=
  let z := b2z c in
  if z =? 34 then Some x22 else if z =? 92 then Some x5c else if z =? 47 then Some x2f
  else if z =? 98 then Some x08 else if z =? 102 then Some x0c else if z =? 110 then Some x0a
  else if z =? 114 then Some x0d else if z =? 116 then Some x09 else None.

(** A string token, after its opening quote: the bytes it denotes and the text behind the closing quote. *)
Fixpoint js_string (s : bytes) : option (bytes * bytes) :=
  match s with
  | [] => None
  | c :: r =>
      if b2z c =? 34 then Some ([], r)
      else if b2z c =? 92 then
        match r with
        | e :: r1 =>
            if b2z e =? 117 then
              match r1 with
              | h1 :: h2 :: h3 :: h4 :: r2 =>
                  match js_hex4 h1 h2 h3 h4 with
                  | Some n =>
                      match utf8 n, js_string r2 with
                      | Some u, Some (t, rest) => Some (u ++ t, rest)
                      | _, _ => None
                      end
                  | None => None
                  end
              | _ => None
              end
            else
              match js_escape e, js_string r1 with
              | Some u, Some (t, rest) => Some (u :: t, rest)
              | _, _ => None
              end
        | [] => None
        end
      else if b2z c <? 32 then None
      else match js_string r with
           | Some (t, rest) => Some (c :: t, rest)
           | None => None
           end
  end.

(** Numbers: -?(0|[1-9][0-9]* )(\.[0-9]+)?([eE][+-]?[0-9]+)? *)
Definition js_digit (c : byte) : bool := (48 <=? b2z c) && (b2z c <=? 57).
Fixpoint skip_digits (s : bytes) : bytes :=
  match s with
  | c :: r => if js_digit c then skip_digits r else s
  | [] => []
  end.
Definition some_digits (s : bytes) : option bytes :=
  match s with
  | c :: r => if js_digit c then Some (skip_digits r) else None
  | [] => None
  end.
Definition js_int (s : bytes) : option bytes :=
  match s with
  | c :: r => if b2z c =? 48 then Some r else if js_digit c then Some (skip_digits r) else None
  | [] => None
  end.
Definition js_frac (s : bytes) : option bytes :=
  match s with
  | c :: r => if b2z c =? 46 then some_digits r else Some s
  | [] => Some []
  end.
Definition js_exp (s : bytes) : option bytes :=
  match s with
  | c :: r =>
      if (b2z c =? 101) || (b2z c =? 69) then
        match r with
        | g :: r' => if (b2z g =? 43) || (b2z g =? 45) then some_digits r' else some_digits r
        | [] => None
        end
      else Some s
  | [] => Some []
  end.
Definition js_number (s : bytes) : bool :=
  let s1 := match s with c :: r => if b2z c =? 45 then r else s | [] => [] end in
  match js_int s1 with
  | Some s2 => match js_frac s2 with
               | Some s3 => match js_exp s3 with Some [] => true | _ => false end
               | None => false
               end
  | None => false
  end.
(** Characters numbers consist of. *)
Definition num_char (c : byte) : bool :=
  js_digit c || (b2z c =? 43) || (b2z c =? 45) || (b2z c =? 46) || (b2z c =? 101) || (b2z c =? 69).
Fixpoint num_token (s : bytes) : bytes * bytes :=
  match s with
  | c :: r => if num_char c then let '(a, b) := num_token r in (c :: a, b) else ([], s)
  | [] => ([], [])
  end.

Fixpoint drop_prefix (p s : bytes) : option bytes :=
  match p, s with
  | [], _ => Some s
  | a :: p', c :: s' => if Byte.eqb a c then drop_prefix p' s' else None
  | _, [] => None
  end.
Definition literal (s : bytes) : option (jval * bytes) :=
  match drop_prefix (str "null") s with
  | Some r => Some (JNull, r)
  | None =>
      match drop_prefix (str "true") s with
      | Some r => Some (JBool true, r)
      | None =>
          match drop_prefix (str "false") s with
          | Some r => Some (JBool false, r)
          | None => let '(t, r) := num_token s in if js_number t then Some (JNum t, r) else None
          end
      end
  end.

(** Values; [fuel] bounds the recursion. *)
Fixpoint js_value (fuel : nat) (s : bytes) : option (jval * bytes) :=
  match fuel with
  | O => None
  | S f =>
      match skip_ws s with
      | [] => None
      | c :: r =>
          if b2z c =? 34 then match js_string r with Some (t, rest) => Some (JStr t, rest) | None => None end
          else if b2z c =? 91 then
            match skip_ws r with
            | d :: r' =>
                if b2z d =? 93 then Some (JArr [], r')
                else match js_elements f r with Some (l, rest) => Some (JArr l, rest) | None => None end
            | [] => None
            end
          else if b2z c =? 123 then
            match skip_ws r with
            | d :: r' =>
                if b2z d =? 125 then Some (JObj [], r')
                else match js_members f r with Some (m, rest) => Some (JObj m, rest) | None => None end
            | [] => None
            end
          else literal (c :: r)
      end
  end
(** "value, value, ... ]" *)
with js_elements (fuel : nat) (s : bytes) : option (list jval * bytes) :=
  match fuel with
  | O => None
  | S f =>
      match js_value f s with
      | Some (v, r) =>
          match skip_ws r with
          | c :: r' =>
              if b2z c =? 93 then Some ([v], r')
              else if b2z c =? 44 then
                match js_elements f r' with Some (l, rest) => Some (v :: l, rest) | None => None end
              else None
          | [] => None
          end
      | None => None
      end
  end
(** "name: value, name: value, ... }" *)
with js_members (fuel : nat) (s : bytes) : option (list (bytes * jval) * bytes) :=
  match fuel with
  | O => None
  | S f =>
      match skip_ws s with
      | q :: s1 =>
          if b2z q =? 34 then
            match js_string s1 with
            | Some (k, s2) =>
                match skip_ws s2 with
                | d :: s3 =>
                    if b2z d =? 58 then
                      match js_value f s3 with
                      | Some (v, r) =>
                          match skip_ws r with
                          | c :: r' =>
                              if b2z c =? 125 then Some ([(k, v)], r')
                              else if b2z c =? 44 then
                                match js_members f r' with Some (l, rest) => Some ((k, v) :: l, rest) | None => None end
                              else None
                          | [] => None
                          end
                      | None => None
                      end
                    else None
                | [] => None
                end
            | None => None
            end
          else None
      | [] => None
      end
  end.

(** A complete JSON text.  Every level of recursion consumes at least one character. *)
Definition js_read (s : bytes) : option jval :=
  match js_value (S (S (List.length s))) s with
  | Some (v, r) => match skip_ws r with [] => Some v | _ => None end
  | None => None
  end.

(** Value of an integer number text. *)
Fixpoint js_nat (acc : Z) (s : bytes) : Z :=
  match s with
  | [] => acc
  | c :: r => js_nat (10 * acc + (b2z c - 48)) r
  end.
Definition js_integer (s : bytes) : Z :=
  match s with
  | c :: r => if b2z c =? 45 then - js_nat 0 r else js_nat 0 s
  | [] => 0
  end.
Definition integer_text (s : bytes) : Prop :=
  js_number s = true /\ forall c, In c s -> js_digit c = true \/ c = x2d.

(** The JSON value that stands for a value: binaries in Base64, date-times as unix time, [show] for doubles. *)
Section Shows.
  Variable show : Z -> bytes.
  Inductive shows : value -> jval -> Prop :=
  | sh_int : forall z t, integer_text t -> js_integer t = z -> shows (VInt z) (JNum t)
  | sh_bool : forall b, shows (VBool b) (JBool b)
  | sh_null : shows VNull JNull
  | sh_double : forall d, shows (VDouble d) (JNum (show d))
  | sh_string : forall s, shows (VString s) (JStr s)
  | sh_view : forall s, shows (VStringView s) (JStr s)
  | sh_binary : forall s, shows (VBinary s) (JStr (rfc4648 s))
  | sh_ref : forall n cs, shows (VBinaryRef n cs) (JStr (rfc4648 (concat cs)))
  | sh_date : forall d t, integer_text t -> js_integer t = dt_unix d -> shows (VDateTime d) (JNum t)
  | sh_struct : forall m js, Forall2 (fun kv kj => fst kv = fst kj /\ shows (snd kv) (snd kj)) m js -> shows (VStruct m) (JObj js)
  | sh_array : forall l js, Forall2 shows l js -> shows (VArray l) (JArr js)
  | sh_secret : forall v j, shows v j -> shows (VSecret v) j.
End Shows.

(** Every double inside a value satisfies [P]; containers have fewer than 2^32 items. *)
Fixpoint doubles (P : Z -> Prop) (v : value) : Prop :=
  match v with
  | VDouble d => P d
  | VStruct m => zlen m < 2 ^ 32 /\
      (fix all (l : list (bytes * value)) : Prop := match l with [] => True | (_, x) :: r => doubles P x /\ all r end) m
  | VArray l => zlen l < 2 ^ 32 /\
      (fix all (l : list value) : Prop := match l with [] => True | x :: r => doubles P x /\ all r end) l
  | VSecret x => doubles P x
  | _ => True
  end.

(** IEEE 754: infinities and NaNs have exponent 2047. *)
Definition finite (bits : Z) : Prop := (bits / 2 ^ 52) mod 2048 <> 2047.
