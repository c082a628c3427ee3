(** What HTTP/1.1 (RFC 7230) says about lines, header fields and chunked bodies, independently of the model. *)
From Verif Require Import Base M_Base64.

(** A text without line feeds. *)
Definition one_line (s : bytes) : Prop := ~ In x0a s.

(** What is left of a line when the carriage returns at its end are dropped. *)
Definition without_cr (line s : bytes) : Prop := exists n, line = s ++ repeat x0d n /\ last s x20 <> x0d.

(** Hexadecimal digits and the number they denote. *)
Definition hex_digit (c : byte) (d : Z) : Prop :=
  (b2z c = 48 + d /\ 0 <= d <= 9) \/ (b2z c = 55 + d /\ 10 <= d <= 15) \/ (b2z c = 87 + d /\ 10 <= d <= 15).
Inductive hex_number : bytes -> Z -> Prop :=
| hex_one : forall c d, hex_digit c d -> hex_number [c] d
| hex_more : forall s n c d, hex_number s n -> hex_digit c d -> hex_number (s ++ [c]) (16 * n + d).

(** What may follow a chunk size: nothing or an extension. *)
Definition chunk_ext (e : bytes) : Prop :=
  one_line e /\ (e = [] \/ exists r, e = x3b :: r).

Definition ascii_space (c : byte) : Prop := c = x20 \/ 9 <= b2z c <= 13.

(** A header field: a name without colon or white space and a value without white space around it. *)
Definition field_ok (f : bytes * bytes) : Prop :=
  fst f <> [] /\ (forall c, In c (fst f) -> c <> x3a /\ ~ ascii_space c) /\
  one_line (snd f) /\
  (forall c r, snd f = c :: r -> ~ ascii_space c) /\ (forall c r, snd f = r ++ [c] -> ~ ascii_space c).
Definition field_text (f : bytes * bytes) : bytes := fst f ++ str ": " ++ snd f ++ crlf.

(** A chunked body: data, trailer fields and the text on the wire (RFC 7230, 4.1). *)
Inductive chunked : bytes -> list (bytes * bytes) -> bytes -> Prop :=
| chunked_last : forall size ext trailer,
    hex_number size 0 -> chunk_ext ext -> Forall field_ok trailer ->
    chunked [] trailer (size ++ ext ++ crlf ++ flat_map field_text trailer ++ crlf)
| chunked_more : forall size ext data body trailer wire,
    hex_number size (zlen data) -> data <> [] -> chunk_ext ext -> chunked body trailer wire ->
    chunked (data ++ body) trailer (size ++ ext ++ crlf ++ data ++ crlf ++ wire).

(** Data arriving piece by piece: no piece is empty. *)
Definition arrives (data : bytes) (pieces : list bytes) : Prop := concat pieces = data /\ Forall (fun d => d <> []) pieces.

(** Handing pieces to a consumer that may fail. *)
Fixpoint hand_over {K F} (take : K -> bytes -> K * option F) (k : K) (pieces : list bytes) : K * option F :=
  match pieces with
  | [] => (k, None)
  | d :: r => match take k d with
              | (k', None) => hand_over take k' r
              | x => x
              end
  end.

(** Decimal digits and the number they denote. *)
Inductive dec_number : bytes -> Z -> Prop :=
| dec_one : forall c d, b2z c = 48 + d -> 0 <= d <= 9 -> dec_number [c] d
| dec_more : forall s n c d, dec_number s n -> b2z c = 48 + d -> 0 <= d <= 9 -> dec_number (s ++ [c]) (10 * n + d).

(** Header names are compared without regard to the case of ASCII letters (RFC 7230, 3.2). *)
Definition ascii_lower (c : byte) : byte := if (65 <=? b2z c) && (b2z c <=? 90) then z2b (b2z c + 32) else c.
Definition same_name (a b : bytes) : Prop := map ascii_lower a = map ascii_lower b.

(** [v] is the value of the first field of that name; there is no such field. *)
Definition first_value (name : bytes) (fs : list (bytes * bytes)) (v : bytes) : Prop :=
  exists a n b, fs = a ++ (n, v) :: b /\ same_name n name /\ Forall (fun f => ~ same_name (fst f) name) a.
Definition no_value (name : bytes) (fs : list (bytes * bytes)) : Prop := Forall (fun f => ~ same_name (fst f) name) fs.

(** The values of the fields of one name, in order. *)
Inductive field_values (name : bytes) : list (bytes * bytes) -> list bytes -> Prop :=
| values_nil : field_values name [] []
| values_same : forall n v fs vs, same_name n name -> field_values name fs vs -> field_values name ((n, v) :: fs) (v :: vs)
| values_other : forall n v fs vs, ~ same_name n name -> field_values name fs vs -> field_values name ((n, v) :: fs) vs.

(** * URLs *)
(** A host name or address, a bracketed (IPv6) address. *)
Definition plain_host (h : bytes) : Prop := forall c, In c h -> c <> x2f /\ c <> x3a /\ c <> x5d.
Definition bracket_host (h : bytes) : Prop :=
  exists a, h = x5b :: a ++ [x5d] /\ forall c, In c a -> c <> x2f /\ c <> x5d.
(** The port as written after the host: nothing (then the default) or a number. *)
Inductive port_text (default : Z) : bytes -> Z -> Prop :=
| port_default : port_text default [] default
| port_number : forall s n, dec_number s n -> n <= 65535 -> port_text default (x3a :: s) n.
(** The path as written and as meant. *)
Inductive path_text : bytes -> bytes -> Prop :=
| path_empty : path_text [] [x2f]
| path_given : forall p, path_text (x2f :: p) (x2f :: p).
