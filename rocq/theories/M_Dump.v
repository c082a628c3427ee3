(** Model of the textual dump and of the ISO 8601 date-time text: src/frpc.cc 57-97 and 278-466. *)
From Verif Require Import Base Value Text.

(** [printf("%0wd")]: the width counts the sign. *)
Definition fmt_d (w : nat) (n : Z) : bytes :=
  if n <? 0 then x2d :: pad0 (w - 1) (dec (- n)) else pad0 w (dec n).

(** [getISODateTime] (frpc.cc 87-97) and the same format in the dump (374-387). *)
Definition iso_text (year month day hour minute sec tz : Z) : bytes :=
  fmt_d 4 year ++ fmt_d 2 month ++ fmt_d 2 day ++ [x54] ++ fmt_d 2 hour ++ [x3a] ++ fmt_d 2 minute ++ [x3a]
  ++ fmt_d 2 sec ++ [if tz <=? 0 then x2b else x2d]
  ++ fmt_d 2 (Z.abs (Z.quot (Z.quot tz 60) 60)) ++ fmt_d 2 (Z.abs (Z.rem (Z.quot tz 60) 60)).

(** Size of the buffer the text is printed to (frpc.cc 90, 376). *)
Definition iso_buffer : Z := 50.

(** "%02x" (frpc.cc 69-75). *)
Definition hex_digit (d : Z) : byte := if d <? 10 then z2b (48 + d) else z2b (87 + d).
Definition hex2 (b : byte) : bytes := [hex_digit (b2z b / 16); hex_digit (b2z b mod 16)].

(** The loop over the bytes of a binary (frpc.cc 344-357) and [HexWriter_t] (57-78): [first] tells that
    nothing was written yet.  Returns the text and the final [len]. *)
Fixpoint hex_loop (maxlen : Z) (first : bool) (len : Z) (s : bytes) : bytes * Z :=
  match s with
  | [] => ([], len)
  | c :: r =>
      let o := (if first then [] else [x20]) ++ hex2 c in
      let len' := if maxlen =? -1 then len else len - 1 in
      if negb (maxlen =? -1) && (len' =? 0) then (o, len')
      else let '(o2, len2) := hex_loop maxlen false len' r in (o ++ o2, len2)
  end.

(** The chunks of a binary reference (frpc.cc 359-371).  A chunk that prints something clears
    [first]. *)
Fixpoint hex_chunks (maxlen : Z) (first : bool) (len : Z) (cs : list bytes) : bytes * Z :=
  match cs with
  | [] => ([], len)
  | c :: r =>
      let '(o, len1) := hex_loop maxlen first len c in
      if len1 =? 0 then (o, len1)
      else let '(o2, len2) := hex_chunks maxlen (match c with [] => first | _ => false end) len1 r in (o ++ o2, len2)
  end.

(** Separator of members and items (frpc.cc 404-405). *)
Definition comma : bytes := [x2c; x20].

(** A string cut at [maxlen] (frpc.cc 318-342); [-1] is no limit and other negative limits are huge as
    [unsigned long]. *)
Definition dump_text (maxlen : Z) (s : bytes) : bytes :=
  [x22] ++ (if negb (maxlen =? -1) && (u64 maxlen <? blen s) then ztake maxlen s ++ str "..." else s) ++ [x22].

(** [names.find(key) != names.end()] (frpc.cc 409). *)
Definition in_names (k : bytes) (names : list bytes) : bool := existsb (bytes_eqb k) names.

Section Dump.
  (** [std::ostream << double]. *)
  Variable show_double : Z -> bytes.
  Variable names : list bytes.     (* std::set<std::string> names *)
  Variable maxlen : Z.

  (** [dumpFastrpcTree] (frpc.cc 288-466).  [pos] is the bit set of hidden positions (64 bits); inner
      calls get an empty one.  All pointers of containers are non-null. *)
  Fixpoint dump (level : Z) (pos : Z) (v : value) : bytes :=
    match v with
    | VSecret _ => str "-hidden-"
    | VInt z => dec_signed z
    | VBool b => if b then str "true" else str "false"
    | VDouble d => show_double d
    | VString s => dump_text maxlen s
    | VStringView s => dump_text maxlen s
    | VBinary s =>
        let '(o, len) := hex_loop maxlen true maxlen s in
        str "b" ++ [x22] ++ o ++ (if len =? 0 then str "..." else []) ++ [x22]
    | VBinaryRef _ cs =>
        let '(o, len) := hex_chunks maxlen true maxlen cs in
        o ++ (if len =? 0 then str "..." else []) ++ [x22]
    | VDateTime d => iso_text (dt_year d) (dt_month d) (dt_day d) (dt_hour d) (dt_min d) (dt_sec d) (dt_tz d)
    | VNull => str "null"
    | VStruct m =>
        str "{" ++
        (if level =? 0 then str "..."
         else (fix go (first : bool) (l : list (bytes * value)) : bytes :=
                 match l with
                 | [] => []
                 | (k, x) :: r =>
                     (if first then [] else comma) ++
                     (if in_names k names then k ++ str ": " ++ str "-hidden-"
                      else k ++ str ": " ++ dump (if level =? -1 then -1 else level - 1) 0 x)
                     ++ go false r
                 end) true m)
        ++ str "}"
    | VArray l =>
        str "(" ++
        (if level =? 0 then str "..."
         else (fix go (i : Z) (l : list value) : bytes :=
                 match l with
                 | [] => []
                 | x :: r =>
                     (if i =? 0 then [] else comma) ++
                     (if (i <? 64) && Z.testbit pos i then str "-hidden-"
                      else dump (if level =? -1 then -1 else level - 1) 0 x)
                     ++ go (i + 1) r
                 end) 0 l)
        ++ str ")"
    end.
End Dump.

(** The limit of the dump without [maxlen] (frpc.cc 278-286, frpcinternals.h 295). *)
Definition MAX_LEN := 20.
