(** Properties of ISO date-time text: C32. *)
From Coq Require Import Lia.
From Verif Require Import Base Value Text M_Dump M_Iso S_Iso L_Base L_Iso.

(** [getISODateTime] of a date-time. *)
Definition iso_of (d : datetime) : bytes :=
  iso_text (dt_year d) (dt_month d) (dt_day d) (dt_hour d) (dt_min d) (dt_sec d) (dt_tz d).

Theorem C32_round_trip : forall d, iso_range d -> parse_iso (iso_of d) = Ok (iso_fields d).
Proof. exact parse_iso_text. Qed.
Print Assumptions C32_round_trip.

(** Whatever the fields, the text and its terminating zero fit the buffer. *)
Theorem C32_no_overflow : forall y mo d h mi c tz,
  in_s16 y -> in_s8 mo -> in_s8 d -> in_s8 h -> in_s8 mi -> in_s8 c -> in_s32 tz ->
  blen (iso_text y mo d h mi c tz) + 1 <= iso_buffer.
Proof. intros. rewrite blen_zlen. pose proof (iso_text_len y mo d h mi c tz). unfold iso_buffer. intuition lia. Qed.
Print Assumptions C32_no_overflow.

Example C32_sample : let d := mkDT 2024 2 29 23 59 58 4 1709251198 (-5400) in
  iso_range d /\ iso_of d = str "20240229T23:59:58+0130" /\ parse_iso (iso_of d) = Ok (iso_fields d).
Proof.
  cbn zeta. split; [unfold iso_range; cbn; repeat (split; try lia); exists (-90); lia|]. split; vm_compute; reflexivity.
Qed.

(** The parser also takes the extended form, fractions and 'Z'. *)
Example C32_extended : parse_iso (str " 2024-02-29T23:59:58.123Z ") = Ok (mkDT 2024 2 29 23 59 58 (-1) (-1) 0)
  /\ parse_iso (str "2024-02-29") = Ok (mkDT 2024 2 29 0 0 0 (-1) (-1) 0)
  /\ parse_iso (str "x") = Err (StreamError "Bad DATE format").
Proof. repeat split; vm_compute; reflexivity. Qed.
