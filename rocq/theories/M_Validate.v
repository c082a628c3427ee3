(** Model of [String_t::validateBytes] (src/frpcstring.cc 162-217). *)
From Verif Require Import Base.

(** What [mbrtowc] (C library, depends on the locale) says of at most four bytes, in the initial state: a character and
    its length, the null character (0), not a character (-1), not yet a character (-2). *)
Inductive mbres : Type := Mb_char (w n : Z) | Mb_nul | Mb_bad | Mb_part.

Section Validate.
  Variable mb : bytes -> mbres.

  (** The characters let through (frpcstring.cc 185-188). *)
  Definition let_through (w : Z) : bool :=
    negb ((negb (w =? 9) && negb (w =? 10) && negb (w =? 13)) && ((w <? 32) || (55295 <? w)) &&
          ((w <? 57344) || (65533 <? w)) && ((w <? 65536) || (1114111 <? w))).

  (** The loop (frpcstring.cc 178-195).  [r] is unsigned: -1 and -2 are not seen as errors by [r <= 0]; [w] is then what it was before,
      or indeterminate, and [at] is moved by 2^64 - 1 or 2^64 - 2, which is undefined (in practice it moves back, and
      the loop does not end). *)
  Fixpoint validate_loop (fuel : nat) (s : bytes) : res unit :=
    match s with
    | [] => Ok tt
    | _ =>
        match fuel with
        | O => UB
        | S k =>
            match mb (ztake 4 s) with
            | Mb_char w n => if let_through w then validate_loop k (zdrop n s) else Err TypeError
            | Mb_nul => Err TypeError
            | Mb_bad | Mb_part => UB
            end
        end
    end.
  (** [policy]: [getStringValidationPolicy] (frpcconfig.h), off by default. *)
  Definition validate (policy : bool) (s : bytes) : res unit := if policy then validate_loop (List.length s) s else Ok tt.
End Validate.
