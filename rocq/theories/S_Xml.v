(** Specification of the part of XML 1.0 the library writes, and of how an XML parser reports it through SAX
    callbacks.  Documents outside this part (attributes, CDATA sections, character references, DTDs, a '>' in text)
    have no meaning here ([None]). *)
From Verif Require Import Base Value M_Marshal M_BinUnmarshal M_TreeBuilder M_Dump M_Json M_Xml S_Iso S_Value.

(** ** Characters: UTF-8 (RFC 3629) of XML characters (XML 1.0, 2.2). *)
Inductive ustate : Type :=
| U0                              (* between characters *)
| UC (lo hi : Z) (more : nat)     (* a byte in [lo, hi] must come, then [more] continuation bytes *)
| UEF.                            (* after 0xEF: U+FFFE and U+FFFF are no characters *)
Definition between (lo z hi : Z) : bool := (lo <=? z) && (z <=? hi).
Definition ustep (u : ustate) (c : byte) : option ustate :=
  let z := b2z c in
  match u with
  | U0 =>
      if (z =? 9) || (z =? 10) || (z =? 13) || between 32 z 127 then Some U0
      else if between 194 z 223 then Some (UC 128 191 0)
      else if z =? 224 then Some (UC 160 191 1)
      else if between 225 z 236 || (z =? 238) then Some (UC 128 191 1)
      else if z =? 237 then Some (UC 128 159 1)
      else if z =? 239 then Some UEF
      else if z =? 240 then Some (UC 144 191 2)
      else if between 241 z 243 then Some (UC 128 191 2)
      else if z =? 244 then Some (UC 128 143 2)
      else None
  | UC lo hi n =>
      if between lo z hi then Some (match n with O => U0 | S m => UC 128 191 m end) else None
  | UEF =>
      if between 128 z 190 then Some (UC 128 191 0) else if z =? 191 then Some (UC 128 189 0) else None
  end.
Fixpoint urun (u : ustate) (s : bytes) : option ustate :=
  match s with
  | [] => Some u
  | c :: r => match ustep u c with Some u' => urun u' r | None => None end
  end.
(** A sequence of complete XML characters. *)
Definition xml_chars (s : bytes) : Prop := urun U0 s = Some U0.

(** Line ends are normalised on input (XML 1.0, 2.11). *)
Fixpoint eol (s : bytes) : bytes :=
  match s with
  | [] => []
  | c :: r =>
      if b2z c =? 13 then
        match r with
        | d :: _ => if b2z d =? 10 then eol r else x0a :: eol r
        | [] => [x0a]
        end
      else c :: eol r
  end.

(** ** Markup *)
Definition letter (c : byte) : bool := between 65 (b2z c) 90 || between 97 (b2z c) 122 || (b2z c =? 95) || (b2z c =? 58).
Definition name_char (c : byte) : bool := letter c || between 48 (b2z c) 57 || (b2z c =? 45) || (b2z c =? 46).
Definition is_name (s : bytes) : bool :=
  match s with c :: r => letter c && forallb name_char r | [] => false end.

Fixpoint has_dashes (s : bytes) : bool :=
  match s with
  | a :: ((b :: _) as r) => ((b2z a =? 45) && (b2z b =? 45)) || has_dashes r
  | _ => false
  end.

Inductive tag : Type :=
| TStart (n : bytes) | TEmpty (n : bytes) | TEnd (n : bytes)
| TComment            (* a complete comment *)
| TMore               (* a '>' inside a comment *)
| TBad.

(** The text between '<' and '>'. *)
Definition markup (w : bytes) : tag :=
  if bytes_eqb (firstn 3 w) (str "!--") then
    let body := skipn 3 w in
    match rev body with
    | a :: b :: r => if (b2z a =? 45) && (b2z b =? 45)
                     then (if has_dashes (rev r ++ str "-") then TBad else TComment) else TMore
    | _ => TMore
    end
  else
    match w with
    | c :: r =>
        if b2z c =? 47 then (if is_name r then TEnd r else TBad)
        else match rev w with
             | d :: q => if b2z d =? 47 then (if is_name (rev q) then TEmpty (rev q) else TBad)
                         else if is_name w then TStart w else TBad
             | [] => TBad
             end
    | [] => TBad
    end.

(** The predefined entities. *)
Definition entity (n : bytes) : option byte :=
  if bytes_eqb n (str "lt") then Some x3c
  else if bytes_eqb n (str "gt") then Some x3e
  else if bytes_eqb n (str "quot") then Some x22
  else if bytes_eqb n (str "amp") then Some x26
  else if bytes_eqb n (str "apos") then Some x27
  else None.

Definition white (c : byte) : bool := (b2z c =? 32) || (b2z c =? 9) || (b2z c =? 10) || (b2z c =? 13).

(** Reading mode: text, inside '<...>' or inside '&...;' (what was read so far, last byte first). *)
Inductive lmode : Type := LText | LTag (acc : bytes) | LEnt (acc : bytes).

Definition more (e : sax) (r : option (list sax)) : option (list sax) := option_map (cons e) r.

(** [stk]: the open elements, innermost first; [seen]: the root element was opened. *)
Fixpoint xtok (stk : list bytes) (seen : bool) (m : lmode) (s : bytes) : option (list sax) :=
  match s with
  | [] => match m, stk with LText, [] => if seen then Some [] else None | _, _ => None end
  | c :: r =>
      match m with
      | LText =>
          if b2z c =? 60 then xtok stk seen (LTag []) r
          else
            match stk with
            | [] => if white c then xtok stk seen LText r else None
            | _ => if b2z c =? 38 then xtok stk seen (LEnt []) r
                   else if b2z c =? 62 then None
                   else more (SChars [c]) (xtok stk seen LText r)
            end
      | LEnt acc =>
          if b2z c =? 59 then
            match entity (rev acc) with
            | Some x => more (SChars [x]) (xtok stk seen LText r)
            | None => None
            end
          else xtok stk seen (LEnt (c :: acc)) r
      | LTag acc =>
          if b2z c =? 62 then
            match markup (rev acc) with
            | TStart n => match stk with
                          | [] => if seen then None else more (SStart n) (xtok [n] true LText r)
                          | _ => more (SStart n) (xtok (n :: stk) true LText r)
                          end
            | TEmpty n => match stk with
                          | [] => if seen then None else more (SStart n) (more (SEnd n) (xtok [] true LText r))
                          | _ => more (SStart n) (more (SEnd n) (xtok stk true LText r))
                          end
            | TEnd n => match stk with
                        | t :: stk' => if bytes_eqb n t then more (SEnd n) (xtok stk' true LText r) else None
                        | [] => None
                        end
            | TComment => xtok stk seen LText r
            | TMore => xtok stk seen (LTag (c :: acc)) r
            | TBad => None
            end
          else xtok stk seen (LTag (c :: acc)) r
      end
  end.

(** The optional XML declaration. *)
Definition xml_decl : bytes := str "<?xml version=""1.0""?>".
Definition after_decl (s : bytes) : bytes :=
  if bytes_eqb (firstn (List.length xml_decl) s) xml_decl then skipn (List.length xml_decl) s else s.

(** The elements and characters of a document, one callback per character. *)
Definition xml_doc (s : bytes) : option (list sax) :=
  match urun U0 s with
  | Some U0 => xtok [] false LText (after_decl (eol s))
  | _ => None
  end.

(** A parser is free to report a run of characters in any pieces. *)
Fixpoint sax_join (l : list sax) : list sax :=
  match l with
  | [] => []
  | SChars a :: r =>
      match a, sax_join r with
      | [], r' => r'
      | _, SChars b :: r' => SChars (a ++ b) :: r'
      | _, r' => SChars a :: r'
      end
  | e :: r => e :: sax_join r
  end.

(** What a parser may do with a text given in [pieces]: [batches] are the callbacks made while each of them is taken and
    [last] those made at the end of the document.  The start tags of a message are not held back until the end. *)
Definition delivery (text : bytes) (pieces : list (bytes * list sax)) (last : list sax) : Prop :=
  concat (map fst pieces) = text
  /\ (forall p, In p pieces -> fst p <> [])
  /\ (exists doc, xml_doc text = Some doc /\ sax_join (concat (map snd pieces) ++ last) = sax_join doc)
  /\ ~ In (SStart (str "methodCall")) last /\ ~ In (SStart (str "methodResponse")) last /\ ~ In (SStart (str "fault")) last.

(** ** Values XML can carry *)
Section Wf.
  Variable double_ok : Z -> Prop.
  (** Text that XML carries unchanged: no carriage return. *)
  Definition xml_text (s : bytes) : Prop := xml_chars s /\ ~ In x0d s.

  Fixpoint xml_wf (v : value) : Prop :=
    match v with
    | VInt z => - 2 ^ 63 < z < 2 ^ 63
    | VBool _ | VNull => True
    | VDouble d => double_ok d
    | VString s | VStringView s => xml_text s
    | VBinary _ | VBinaryRef _ _ => True
    | VDateTime d => iso_range d
    | VStruct m =>
        zlen m < 2 ^ 32 /\
        (fix all (l : list (bytes * value)) : Prop :=
           match l with
           | [] => True
           | (k, x) :: r => (1 <= blen k <= 255 /\ xml_text k /\ xml_wf x) /\ all r
           end) m
    | VArray l =>
        zlen l < 2 ^ 32 /\
        (fix all (l : list value) : Prop := match l with [] => True | x :: r => xml_wf x /\ all r end) l
    | VSecret x => xml_wf x
    end.
End Wf.

(** Member names in order everywhere, as iteration of a [std::map] delivers them. *)
Fixpoint ordered (v : value) : Prop :=
  match v with
  | VStruct m => increasing m /\
      (fix all (l : list (bytes * value)) : Prop := match l with [] => True | (_, x) :: r => ordered x /\ all r end) m
  | VArray l => (fix all (l : list value) : Prop := match l with [] => True | x :: r => ordered x /\ all r end) l
  | VSecret x => ordered x
  | _ => True
  end.

(** Printed doubles: printable ASCII other than markup. *)
Definition plain_char (c : byte) : bool :=
  between 33 (b2z c) 126 && negb (b2z c =? 60) && negb (b2z c =? 62) && negb (b2z c =? 38) && negb (b2z c =? 34).

(** XML sets no sizes and carries no week day and unix time. *)
Definition xml_event (e : event) : event :=
  match e with
  | EOpenStruct _ => EOpenStruct 0
  | EOpenArray _ => EOpenArray 0
  | EDateTime d => EDateTime (iso_fields d)
  | e => e
  end.

(** ** Escaped text *)
(** [xml_escaped t s]: the character data [t], free of markup, denotes the characters [s]. *)
Inductive xml_escaped : bytes -> bytes -> Prop :=
| esc_nil : xml_escaped [] []
| esc_char : forall c t s, c <> x3c -> c <> x3e -> c <> x22 -> c <> x26 -> xml_escaped t s -> xml_escaped (c :: t) (c :: s)
| esc_entity : forall name c t s, entity name = Some c -> xml_escaped t s ->
    xml_escaped (x26 :: name ++ x3b :: t) (c :: s).

(** ** Receiving *)
(** A fresh unmarshaller and a fresh tree builder get a document; the tree builder afterwards. *)
Definition xml_received (val : option mktime_t) (strtod : bytes -> option Z) (erange : bool) (want : Z)
  (pieces : list (bytes * list sax)) (last : list sax) : res tb :=
  match x_receive (tb_step val) strtod erange want tb_init pieces last with
  | (_, t, None) => Ok t
  | (_, _, Some (Exn e)) => Err e
  | (_, _, Some Undef) => UB
  end.

(** Doubles that survive being printed by [fin] and read by [strtod]. *)
Definition double_exact (fin : Z -> bytes) (strtod : bytes -> option Z) (d : Z) : Prop :=
  strtod (show_double fin d) = Some d /\ forallb plain_char (show_double fin d) = true.

(** ** Nesting *)
(** Start and end tags nest, as in every prefix of a well formed document; [stk]: the open elements. *)
Fixpoint nested_sax (stk : list bytes) (l : list sax) : Prop :=
  match l with
  | [] => True
  | SStart n :: r => nested_sax (n :: stk) r
  | SEnd n :: r => match stk with m :: stk' => n = m /\ nested_sax stk' r | [] => False end
  | SChars _ :: r => nested_sax stk r
  end.

(** Every close matches the innermost open container. *)
Fixpoint balanced (stk : list kind) (es : list event) : Prop :=
  match es with
  | [] => True
  | EOpenStruct _ :: r => balanced (KStruct :: stk) r
  | EOpenArray _ :: r => balanced (KArray :: stk) r
  | ECloseStruct :: r => match stk with KStruct :: stk' => balanced stk' r | _ => False end
  | ECloseArray :: r => match stk with KArray :: stk' => balanced stk' r | _ => False end
  | _ :: r => balanced stk r
  end.
