(** Model of the text level of HTTP: src/frpchttp.cc, the static functions of src/frpchttpio.cc and the
    number extractions of libstdc++ these use. *)
From Verif Require Import Base Text M_Base64 M_Iso M_Url.

(** [isalnum], [toupper], [tolower] of the C locale. *)
Definition is_upper (c : byte) : bool := (65 <=? b2z c) && (b2z c <=? 90).
Definition is_lower (c : byte) : bool := (97 <=? b2z c) && (b2z c <=? 122).
Definition is_alnum (c : byte) : bool := is_digit c || is_upper c || is_lower c.
Definition to_upper (c : byte) : byte := if is_lower c then z2b (b2z c - 32) else c.
Definition to_lower (c : byte) : byte := if is_upper c then z2b (b2z c + 32) else c.

(** [polishName] (frpchttp.cc 51-68); [prev] tells whether the character before is alphanumeric. *)
Fixpoint polish (prev : bool) (s : bytes) : bytes :=
  match s with
  | [] => []
  | c :: r =>
      (if is_alnum c then if prev then to_lower c else to_upper c else c) :: polish (is_alnum c) r
  end.
Definition polish_name (s : bytes) : bytes := polish false s.

(** * HTTPHeader_t (frpchttp.cc 72-184): a vector of (name, value). *)
Definition header := list (bytes * bytes).

(** Both [get]s (frpchttp.cc 72-104): the [index]-th field of that name. *)
Fixpoint field_nth (name : bytes) (index : Z) (h : header) : option bytes :=
  match h with
  | [] => None
  | (n, v) :: r =>
      if bytes_eqb name n then if index =? 0 then Some v else field_nth name (index - 1) r
      else field_nth name index r
  end.
Definition header_get (name : bytes) (index : Z) (h : header) : option bytes :=
  field_nth (polish_name name) index h.

(** [getList] (frpchttp.cc 107-118). *)
Definition header_list (name : bytes) (h : header) : list bytes :=
  map snd (filter (fun f => bytes_eqb (polish_name name) (fst f)) h).

(** [set] (frpchttp.cc 120-141). *)
Fixpoint field_set (name : bytes) (index : Z) (v : bytes) (create : bool) (h : header) : header :=
  match h with
  | [] => if create then [(name, v)] else []
  | (n, w) :: r =>
      if bytes_eqb name n then
        if index =? 0 then (n, v) :: r else (n, w) :: field_set name (index - 1) v create r
      else (n, w) :: field_set name index v create r
  end.
Definition header_set (name v : bytes) (create : bool) (index : Z) (h : header) : header :=
  field_set (polish_name name) index v create h.

(** [add] (frpchttp.cc 143-147). *)
Definition header_add (name v : bytes) (h : header) : header := h ++ [(polish_name name, v)].

(** [remove] (frpchttp.cc 149-167); [None]: -1. *)
Fixpoint field_remove (name : bytes) (index : Z) (h : header) : option header :=
  match h with
  | [] => None
  | (n, w) :: r =>
      if bytes_eqb name n then
        if index =? 0 then Some r else option_map (cons (n, w)) (field_remove name (index - 1) r)
      else option_map (cons (n, w)) (field_remove name index r)
  end.
Definition header_remove (name : bytes) (index : Z) (h : header) : option header :=
  field_remove (polish_name name) index h.

(** [appendValue] (frpchttp.cc 169-174). *)
Fixpoint append_last (v : bytes) (h : header) : header :=
  match h with
  | [] => []
  | [(n, w)] => [(n, w ++ v)]
  | f :: r => f :: append_last v r
  end.
Definition HTTP_TIMEOUT := 0.
Definition HTTP_SYSCALL := 1.
Definition HTTP_CLOSED := 2.
Definition HTTP_VALUE := 3.
Definition HTTP_LINE_TOO_LONG := 5.
Definition HTTP_BODY_TOO_LONG := 6.
Definition HTTP_NO_REQUEST_RECEIVED := 10.
Definition header_append (v : bytes) (h : header) : res header :=
  match h with [] => Err (HTTPError HTTP_VALUE) | _ => Ok (append_last v h) end.

(** [operator<<] (frpchttp.cc 176-184). *)
Definition header_text (h : header) : bytes := flat_map (fun f => fst f ++ str ": " ++ snd f ++ crlf) h.

(** * HTTPIO_t statics *)
(** [splitBySpace] (frpchttpio.cc 72-115).  [limit] is [upto - 1], [n] the number of words so far, [cur] the word
    being read. *)
Fixpoint split_words (limit n : Z) (cur : bytes) (s : bytes) : list bytes :=
  let ps := match cur with [] => [] | _ => [cur] end in
  match s with
  | [] => ps
  | c :: r =>
      if is_space c then
        if n + zlen ps =? limit then ps ++ match r with [] => [] | _ => [r] end
        else ps ++ split_words limit (n + zlen ps) [] r
      else split_words limit n (cur ++ [c]) r
  end.
Definition split_by_space (s : bytes) (upto : Z) : list bytes := split_words (upto - 1) 0 [] s.

(** Removing trailing characters, for [getHeaderValue] (frpchttpio.cc 117-159). *)
Definition strip_end (p : byte -> bool) (s : bytes) : bytes := rev (skip p (rev s)).

(** [getHeaderValue] (frpchttpio.cc 117-159); both strings are empty on entry. *)
Definition get_header_value (line : bytes) : option (bytes * bytes) :=
  match line with
  | [] => None
  | c :: _ =>
      if is_space c then Some ([], x20 :: skip is_space line)
      else match break_at 58 line with
           | (_, None) => None
           | (name, Some r) => Some (name, strip_end is_space (skip is_space r))
           end
  end.

(** * Extraction of integers by libstdc++ ([num_get]) in the C locale *)
(** The value of a hexadecimal digit. *)
Definition hex_val (c : byte) : option Z :=
  let z := b2z c in
  if (48 <=? z) && (z <=? 57) then Some (z - 48)
  else if (65 <=? z) && (z <=? 70) then Some (z - 55)
  else if (97 <=? z) && (z <=? 102) then Some (z - 87)
  else None.
(** The digits at the start of a text: how many and their value. *)
Fixpoint digits_of (dig : byte -> option Z) (base acc : Z) (s : bytes) : Z * Z :=
  match s with
  | c :: r => match dig c with
              | Some d => let '(n, v) := digits_of dig base (acc * base + d) r in (n + 1, v)
              | None => (0, acc)
              end
  | [] => (0, acc)
  end.
Definition dec_val (c : byte) : option Z := if is_digit c then Some (digit_val c) else None.
Definition sign_of (s : bytes) : bool * bytes :=
  match s with
  | c :: r => if is_char 45 c then (true, r) else if is_char 43 c then (false, r) else (false, s)
  | [] => (false, [])
  end.

(** The optional "0x" [strtol] and [strtoul] skip with base 16 (C library; used by frpchttpio.cc 512-523). *)
Definition skip_0x (s : bytes) : bytes :=
  match s with
  | a :: c :: r => if is_char 48 a && (is_char 120 c || is_char 88 c) then r else s
  | _ => s
  end.

(** [is >> std::hex >> l] with [long l]: [None] is failbit.  "0x" may precede the digits. *)
Definition read_hex_long (s : bytes) : option Z :=
  let '(neg, s1) := sign_of (skip is_space s) in
  let '(n, v) := digits_of hex_val 16 0 (skip_0x s1) in
  if n =? 0 then None
  else if (if neg then 2 ^ 63 else 2 ^ 63 - 1) <? v then None
  else Some (if neg then - v else v).

(** [is >> l] with [long l]. *)
Definition read_dec_long (s : bytes) : option Z :=
  let '(neg, s1) := sign_of (skip is_space s) in
  let '(n, v) := digits_of dec_val 10 0 s1 in
  if n =? 0 then None
  else if (if neg then 2 ^ 63 else 2 ^ 63 - 1) <? v then None
  else Some (if neg then - v else v).

(** [is >> i] with [int i]; the value stored also on failure. *)
Definition read_dec_int (s : bytes) : Z :=
  let '(neg, s1) := sign_of (skip is_space s) in
  let '(n, v) := digits_of dec_val 10 0 s1 in
  if n =? 0 then 0
  else if neg then if 2 ^ 31 <? v then - 2 ^ 31 else - v
  else if 2 ^ 31 - 1 <? v then 2 ^ 31 - 1 else v.

(** [is >> p] with [unsigned short p]; the value stored also on failure. *)
Definition read_dec_u16 (s : bytes) : Z :=
  let '(neg, s1) := sign_of (skip is_space s) in
  let '(n, v) := digits_of dec_val 10 0 s1 in
  if n =? 0 then 0
  else if 65535 <? v then 65535
  else if neg then u16 (- v) else v.

(** * URL_t (frpchttp.cc 197-311) *)
Record url : Type := mkUrl { u_host : bytes; u_port : Z; u_path : bytes; u_proxy : bool; u_ssl : bool }.

(** [equal(schema.begin(), schema.end(), url.begin(), nocaseCmp)] with enough characters. *)
Fixpoint prefix_nocase (p s : bytes) : option bytes :=
  match p, s with
  | [], _ => Some s
  | a :: p', c :: s' => if byte_eqb (to_upper a) (to_upper c) then prefix_nocase p' s' else None
  | _ :: _, [] => None
  end.

(** The schemes [URL_t::parse] knows (frpchttp.cc 197-276). *)
Inductive scheme : Type := Sch_http | Sch_https | Sch_unix.
Definition url_scheme (s : bytes) : option (scheme * bytes) :=
  match prefix_nocase (str "http://") s with
  | Some r => Some (Sch_http, r)
  | None =>
      match prefix_nocase (str "https://") s with
      | Some r => Some (Sch_https, r)
      | None =>
          match prefix_nocase (str "unix://") s with
          | Some r => Some (Sch_unix, r)
          | None => None
          end
      end
  end.

(** Position of the first [c], [std::string::npos] being [None]. *)
Fixpoint find_char (c : Z) (s : bytes) : option Z :=
  match s with
  | [] => None
  | a :: r => if is_char c a then Some 0 else option_map (Z.add 1) (find_char c r)
  end.
Definition find_char_from (c pos : Z) (s : bytes) : option Z := option_map (Z.add pos) (find_char c (zdrop pos s)).

(** [URL_t::parse] (frpchttp.cc 197-276) of a new object.  [r] is what follows the scheme: positions are counted from there, which
    changes nothing since no scheme contains ']'. *)
Definition url_parse (s : bytes) : res url :=
  match url_scheme s with
  | None => Err TypeError
  | Some (sch, r) =>
      let '(path, slash) := match find_char 47 r with
                            | Some i => (zdrop i r, i)
                            | None => (str "/", blen r)
                            end in
      let pos := match find_char 93 r with Some i => i | None => 0 end in
      let ssl := match sch with Sch_https => true | _ => false end in
      let '(host, port) :=
        match find_char_from 58 pos r with
        | Some colon =>
            if colon <? slash then
              (ztake colon r, read_dec_u16 (ztake (slash - (colon + 1)) (zdrop (colon + 1) r)))
            else (ztake slash r, if ssl then 443 else 80)
        | None => (ztake slash r, if ssl then 443 else 80)
        end in
      match sch with
      | Sch_unix => match host with
                    | [] => Ok (mkUrl host 0 path false ssl)
                    | _ => Err TypeError
                    end
      | _ => Ok (mkUrl host port path false ssl)
      end
  end.

(** The constructor (frpchttp.cc 285-299). *)
Definition url_make (s via : bytes) : res url :=
  match via with
  | [] => url_parse s
  | _ => bind (url_parse via) (fun u => Ok (mkUrl (u_host u) (u_port u) s true (u_ssl u)))
  end.

(** [isUnix] (frpchttp.cc 278-283), [getUrl] (frpchttp.cc 301-311). *)
Definition url_is_unix (u : url) : bool := u_port u =? 0.
Definition url_text (u : url) : bytes :=
  if u_proxy u then u_path u
  else (if u_ssl u then str "https://" else str "http://") ++ u_host u ++
       (if u_port u =? (if u_ssl u then 443 else 80) then [] else x3a :: dec (u_port u)) ++ u_path u.
