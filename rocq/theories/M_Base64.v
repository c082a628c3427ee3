(** Model of src/frpcbase64.cc, src/frpcb64writer.cc, [XmlMarshaller_t::writeEncodeBase64]
    (src/frpcxmlmarshaller.cc 475-550) and src/frpcb64unmarshaller.cc. *)
From Verif Require Import Base.

(** [isspace] of the C locale (glibc: false for the bytes 128-255, which are negative [char]s). *)
Definition is_space (c : byte) : bool := ((9 <=? b2z c) && (b2z c <=? 13)) || (b2z c =? 32).

(** [base64Table] (frpcbase64.cc, up to line 79): 0x80 for characters outside the alphabet, except that the
    byte 0 maps to 0. *)
Definition b64_table (c : byte) : Z :=
  let z := b2z c in
  if z =? 0 then 0
  else if z =? 43 then 62
  else if z =? 47 then 63
  else if (48 <=? z) && (z <=? 57) then z + 4
  else if (65 <=? z) && (z <=? 90) then z - 65
  else if (97 <=? z) && (z <=? 122) then z - 71
  else 128.

(** Decoding a complete quad (frpcbase64.cc 126-137); the flag says that the quad was not padded. *)
Definition b64_quad (a0 a1 a2 a3 : byte) : bytes * bool :=
  let b0 := b64_table a0 in let b1 := b64_table a1 in
  let b2 := b64_table a2 in let b3 := b64_table a3 in
  let o0 := z2b (Z.lor (Z.shiftl b0 2) (Z.shiftr b1 4)) in
  let o1 := z2b (Z.lor (Z.shiftl b1 4) (Z.shiftr b2 2)) in
  let o2 := z2b (Z.lor (Z.shiftl b2 6) b3) in
  if b2z a2 =? 61 then ([o0], false)
  else if b2z a3 =? 61 then ([o0; o1], false)
  else ([o0; o1; o2], true).

(** [Base64::process] (frpcbase64.cc 99-141).  The state is the part of the current quad read so far
    ([a[0..i)]; [b] is a function of [a], entries from [i] on are never read).  White space is skipped.
    After a padded quad the rest of this call's input is dropped ([break] at 178). *)
Fixpoint b64_process (q : bytes) (data : bytes) : bytes * bytes :=
  match data with
  | [] => ([], q)
  | c :: r =>
      if is_space c then b64_process q r
      else
        match q with
        | [a0; a1; a2] =>
            let '(o, more) := b64_quad a0 a1 a2 c in
            if more then let '(o', q') := b64_process [] r in (o ++ o', q') else (o, [])
        | _ => b64_process (q ++ [c]) r
        end
  end.

(** [Base64::decode] (frpcbase64.cc 82-85). *)
Definition b64_decode (data : bytes) : bytes := fst (b64_process [] data).

(** Successive [process] calls on one decoder: the concatenated results. *)
Fixpoint b64_process_all (q : bytes) (pieces : list bytes) : bytes :=
  match pieces with
  | [] => []
  | p :: ps => let '(o, q') := b64_process q p in o ++ b64_process_all q' ps
  end.

(** ** Base64Writer_t (frpcb64writer.cc) *)
(** [B64_ALPHABET] (frpcb64writer.cc 38-47), also [table] of frpcxmlmarshaller.cc 491-492. *)
Definition b64_alphabet : bytes := str "ABCDEFGHIJKLMNOPQRSTUVWXYZabcdefghijklmnopqrstuvwxyz0123456789+/".
Definition b64_char (i : Z) : byte := nth (Z.to_nat i) b64_alphabet x00.

(** [States_t] (frpcb64writer.h 48, frpcb64writer.cc 50-54). *)
Inductive b64_pos : Type := B64_first | B64_second | B64_third.

(** One byte of [write] (frpcb64writer.cc 64-98): the loop with falling through cases handles one byte per case. *)
Definition b64w_byte (st : b64_pos * Z) (c : byte) : bytes * (b64_pos * Z) :=
  let u := b2z c in
  match fst st with
  | B64_first => ([b64_char (Z.shiftr u 2)], (B64_second, Z.shiftl (Z.land u 3) 4))
  | B64_second => ([b64_char (Z.lor (snd st) (Z.shiftr (Z.land u 240) 4))], (B64_third, Z.shiftl (Z.land u 15) 2))
  | B64_third => ([b64_char (Z.lor (snd st) (Z.shiftr (Z.land u 192) 6)); b64_char (Z.land u 63)], (B64_first, 0))
  end.

(** [write] of a whole piece (frpcb64writer.cc 64-98). *)
Fixpoint b64w_write (st : b64_pos * Z) (data : bytes) : bytes * (b64_pos * Z) :=
  match data with
  | [] => ([], st)
  | c :: r => let '(o, st1) := b64w_byte st c in
              let '(o', st2) := b64w_write st1 r in (o ++ o', st2)
  end.

(** [flush] (frpcb64writer.cc 100-119): pads and resets. *)
Definition b64w_flush (st : b64_pos * Z) : bytes :=
  match fst st with
  | B64_first => []
  | B64_second => [b64_char (snd st)] ++ str "=="
  | B64_third => [b64_char (snd st)] ++ str "="
  end.

(** Everything a fresh writer hands to the underlying writer for a series of [write]s and a [flush]. *)
Fixpoint b64w_run (st : b64_pos * Z) (pieces : list bytes) : bytes :=
  match pieces with
  | [] => b64w_flush st
  | p :: ps => let '(o, st') := b64w_write st p in o ++ b64w_run st' ps
  end.
Definition b64_text (pieces : list bytes) : bytes := b64w_run (B64_first, 0) pieces.

(** ** writeEncodeBase64 (frpcxmlmarshaller.cc 475-550) *)
Definition sextet1 (o0 : byte) : byte := b64_char (Z.shiftr (b2z o0) 2).
Definition sextet2 (o0 o1 : Z) : byte := b64_char (Z.lor (Z.shiftl (Z.land o0 3) 4) (Z.shiftr o1 4)).
Definition sextet3 (o1 o2 : Z) : byte := b64_char (Z.lor (Z.shiftl (Z.land o1 15) 2) (Z.shiftr o2 6)).
Definition sextet4 (o2 : byte) : byte := b64_char (Z.land (b2z o2) 63).
Definition crlf : bytes := [x0d; x0a].

(** The loops over chunks and bytes (frpcxmlmarshaller.cc 510-532) take one byte after the other; [input] is the group
    collected so far. *)
Fixpoint xb64_loop (rn : bool) (input : bytes) (line_len : Z) (data : bytes) : bytes * (bytes * Z) :=
  match data with
  | [] => ([], (input, line_len))
  | c :: r =>
      match input with
      | [i0; i1] =>
          let quad := [sextet1 i0; sextet2 (b2z i0) (b2z i1); sextet3 (b2z i1) (b2z c); sextet4 c] in
          let l := line_len + 4 in
          let '(brk, l') := if rn then (if 72 <? l then (crlf, 0) else ([], l)) else ([], line_len) in
          let '(o, st) := xb64_loop rn [] l' r in (quad ++ brk ++ o, st)
      | _ => xb64_loop rn (input ++ [c]) line_len r
      end
  end.

(** The rest of the function (frpcxmlmarshaller.cc 533-550). *)
Definition xb64_tail (rn : bool) (st : bytes * Z) : bytes :=
  (match fst st with
   | [i0] => [sextet1 i0; sextet2 (b2z i0) 0] ++ str "=="
   | [i0; i1] => [sextet1 i0; sextet2 (b2z i0) (b2z i1); sextet3 (b2z i1) 0] ++ str "="
   | _ => []
   end)
  ++ (if rn && negb (snd st =? 0) then crlf else []).

(** [chunks] are the chunks the feeder returns before the null one. *)
Definition write_encode_base64 (rn : bool) (chunks : list bytes) : bytes :=
  let '(o, st) := xb64_loop rn [] 0 (concat chunks) in o ++ xb64_tail rn st.

(** ** Base64UnMarshaller_t (frpcb64unmarshaller.cc 44-55): every piece of text is decoded with the one
    decoder of the object, and a non-empty result is passed on to [BinUnMarshaller_t::unMarshall].
    [b64_outputs] are the pieces passed on. *)
Fixpoint b64_outputs (q : bytes) (pieces : list bytes) : list bytes :=
  match pieces with
  | [] => []
  | p :: ps => let '(o, q') := b64_process q p in
               match o with
               | [] => b64_outputs q' ps
               | _ => o :: b64_outputs q' ps
               end
  end.
