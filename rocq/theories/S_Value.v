(** Specification of values: what a receiver gets back, well-formedness, and the builder calls that
    describe a value. *)
From Verif Require Import Base Value M_Marshal M_BinUnmarshal.

(** What travels: string views become strings, binary references binaries, secret wrappers vanish;
    [f] is applied to every date-time. *)
Fixpoint plain (f : datetime -> datetime) (v : value) : value :=
  match v with
  | VInt z => VInt z
  | VBool b => VBool b
  | VNull => VNull
  | VDouble d => VDouble d
  | VString s => VString s
  | VStringView s => VString s
  | VBinary s => VBinary s
  | VBinaryRef _ cs => VBinary (concat cs)
  | VDateTime d => VDateTime (f d)
  | VStruct m => VStruct (map (fun kv => (fst kv, plain f (snd kv))) m)
  | VArray l => VArray (map (plain f) l)
  | VSecret x => plain f x
  end.

(** The builder calls that describe a value, in order. *)
Fixpoint events (v : value) : list event :=
  match v with
  | VInt z => [EInt z]
  | VBool b => [EBool b]
  | VNull => [ENull]
  | VDouble d => [EDouble d]
  | VString s => [EString s]
  | VStringView s => [EString s]
  | VBinary s => [EBinary s]
  | VBinaryRef _ cs => [EBinary (concat cs)]
  | VDateTime d => [EDateTime d]
  | VStruct m =>
      EOpenStruct (zlen m) :: flat_map (fun kv => EMember (fst kv) :: events (snd kv)) m ++ [ECloseStruct]
  | VArray l => EOpenArray (zlen l) :: flat_map events l ++ [ECloseArray]
  | VSecret x => events x
  end.

(** Keys in strictly increasing order, as iteration of a [std::map] delivers them. *)
Fixpoint increasing {A} (m : list (bytes * A)) : Prop :=
  match m with
  | [] => True
  | (k, _) :: r => (forall k' x, In (k', x) r -> bytes_cmp k k' = Lt) /\ increasing r
  end.

Definition small (n : Z) : Prop := 0 <= n < 2 ^ 30.

(** Date-times every version of the wire format can carry.  [bits] is the size of the unix time field. *)
Definition dt_ok (bits : Z) (d : datetime) : Prop :=
  1600 <= dt_year d <= 2623 /\ 1 <= dt_month d <= 12 /\ 1 <= dt_day d <= 31
  /\ 0 <= dt_hour d <= 23 /\ 0 <= dt_min d <= 59 /\ 0 <= dt_sec d <= 59 /\ 0 <= dt_wday d <= 6
  /\ - 2 ^ (bits - 1) <= dt_unix d < 2 ^ (bits - 1)
  /\ (exists q, - 128 <= q <= 127 /\ dt_tz d = q * 900).

Definition unix_bits (v : version) : Z := if v_major v =? 3 then 64 else 32.

(** Protocol versions 2.x and 3.x. *)
Definition modern (v : version) : Prop :=
  (v_major v = 2 \/ v_major v = 3) /\ 0 <= v_minor v < 256.
Definition has_null (v : version) : Prop := v_major v = 3 \/ 1 <= v_minor v.

(** Values the wire format of version [ver] can carry. *)
Fixpoint wf (ver : version) (v : value) : Prop :=
  match v with
  | VInt z => in_s64 z
  | VBool _ => True
  | VNull => has_null ver
  | VDouble d => in_u64 d
  | VString s => small (blen s)
  | VStringView s => small (blen s)
  | VBinary s => small (blen s)
  | VBinaryRef n cs => n = blen (concat cs) /\ small n
  | VDateTime d => dt_ok (unix_bits ver) d
  | VStruct m =>
      small (zlen m) /\ increasing m /\
      (fix all (l : list (bytes * value)) : Prop :=
         match l with
         | [] => True
         | (k, x) :: r => 1 <= blen k <= 255 /\ wf ver x /\ all r
         end) m
  | VArray l =>
      small (zlen l) /\
      (fix all (l : list value) : Prop :=
         match l with
         | [] => True
         | x :: r => wf ver x /\ all r
         end) l
  | VSecret x => wf ver x
  end.

(** Replaying calls into a builder, up to the first failure. *)
Fixpoint replay {B} (bstep : B -> event -> B * option fail) (b : B) (es : list event)
  : B * option fail :=
  match es with
  | [] => (b, None)
  | e :: r =>
      match bstep b e with
      | (b', None) => replay bstep b' r
      | (b', Some f) => (b', Some f)
      end
  end.
