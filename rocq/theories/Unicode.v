(** Unicode encodings (the Unicode standard, section 3.9; not part of the repository). *)
From Verif Require Import Base.

(** UTF-8 of a code point. *)
Definition utf8_char (c : Z) : bytes :=
  if c <? 128 then [z2b c]
  else if c <? 2048 then [z2b (192 + c / 64); z2b (128 + c mod 64)]
  else if c <? 65536 then [z2b (224 + c / 4096); z2b (128 + c / 64 mod 64); z2b (128 + c mod 64)]
  else [z2b (240 + c / 262144); z2b (128 + c / 4096 mod 64); z2b (128 + c / 64 mod 64); z2b (128 + c mod 64)].

(** UTF-16 of a code point: one or two 16-bit units. *)
Definition utf16_char (c : Z) : list Z :=
  if c <? 65536 then [c] else [55296 + (c - 65536) / 1024; 56320 + (c - 65536) mod 1024].

(** Code points that are characters: no surrogates, nothing beyond the last plane. *)
Definition uchar (c : Z) : Prop := 0 <= c < 55296 \/ 57344 <= c < 1114112.
