(** Specification: where a message ends (RFC 7230, 3.3.3). *)
From Verif Require Import Base S_Http.

(** What follows the header. *)
Inductive framing : Type := F_length (n : Z) | F_chunked | F_nothing.

(** The cases of RFC 7230 that tell where the body of a request ends: a chunked transfer encoding, which overrides any
    Content-Length; lengths that are one number; neither. *)
Inductive rfc_framing : list (bytes * bytes) -> framing -> Prop :=
| rfc_chunked : forall fs v, field_values (str "Transfer-Encoding") fs [v] -> same_name v (str "chunked") -> rfc_framing fs F_chunked
| rfc_length : forall fs vs n, field_values (str "Transfer-Encoding") fs [] -> field_values (str "Content-Length") fs vs -> vs <> [] ->
    Forall (fun v => dec_number v n) vs -> rfc_framing fs (F_length n)
| rfc_nothing : forall fs, field_values (str "Transfer-Encoding") fs [] -> field_values (str "Content-Length") fs [] -> rfc_framing fs F_nothing.

(** Bytes after the header that are a body: its content and the trailer fields. *)
Inductive rfc_body : framing -> bytes -> list (bytes * bytes) -> bytes -> Prop :=
| body_length : forall b, rfc_body (F_length (zlen b)) b [] b
| body_chunked : forall b t wire, chunked b t wire -> rfc_body F_chunked b t wire
| body_nothing : rfc_body F_nothing [] [] [].

(** What must be refused: a Content-Length that is no number, two that differ, a field name followed by white space. *)
Inductive rfc_refused : list (bytes * bytes) -> Prop :=
| refused_length : forall fs vs v, field_values (str "Transfer-Encoding") fs [] -> field_values (str "Content-Length") fs vs -> In v vs ->
    (forall n, ~ dec_number v n) -> rfc_refused fs
| refused_two : forall fs vs a b n m, field_values (str "Transfer-Encoding") fs [] -> field_values (str "Content-Length") fs vs -> In a vs -> In b vs ->
    dec_number a n -> dec_number b m -> n <> m -> rfc_refused fs
| refused_space : forall fs n v, In (n ++ [x20], v) fs -> rfc_refused fs.
