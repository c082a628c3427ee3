(** UTF-8 (RFC 3629) and XML characters (XML 1.0, 2.2), by code points. *)
From Verif Require Import Base M_Validate.

Definition scalar (c : Z) : Prop := 0 <= c < 55296 \/ 57344 <= c < 1114112.
Definition utf8_char (c : Z) : bytes :=
  if c <? 128 then [z2b c]
  else if c <? 2048 then [z2b (192 + c / 64); z2b (128 + c mod 64)]
  else if c <? 65536 then [z2b (224 + c / 4096); z2b (128 + c / 64 mod 64); z2b (128 + c mod 64)]
  else [z2b (240 + c / 262144); z2b (128 + c / 4096 mod 64); z2b (128 + c / 64 mod 64); z2b (128 + c mod 64)].
Definition utf8_text (cs : list Z) : bytes := flat_map utf8_char cs.
Definition xml_char (c : Z) : Prop := c = 9 \/ c = 10 \/ c = 13 \/ 32 <= c <= 55295 \/ 57344 <= c <= 65533 \/ 65536 <= c <= 1114111.
(** No character at the start. *)
Definition no_char (s : bytes) : Prop := s <> [] /\ forall c t, scalar c -> s <> utf8_char c ++ t.

(** The C library's decoder in an UTF-8 locale. *)
Record utf8_locale (mb : bytes -> mbres) : Prop := mkLocale {
  mb_chars : forall c t, scalar c -> c <> 0 -> mb (utf8_char c ++ t) = Mb_char c (zlen (utf8_char c));
  mb_nul : forall t, mb (x00 :: t) = Mb_nul;
  mb_others : forall s, no_char s -> zlen s <= 4 -> mb s = Mb_bad \/ mb s = Mb_part
}.
