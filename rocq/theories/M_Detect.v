(** [UnMarshaller_t::create] and [Marshaller_t::create] (src/frpcunmarshaller.cc 56-115, src/frpcmarshaller.cc 49-80): how the
    library chooses the format. *)
From Verif Require Import Base Value Text M_Marshal M_BinUnmarshal M_TreeBuilder M_Base64 M_Iso M_Url M_Registry M_Xml M_XmlUm.

(** An unmarshaller [create] made, with the builder. *)
Inductive detected (P : parser) : Type :=
| D_bin (u : unm) (t : tb)
| D_xml (p : ps_state P) (u : xun) (t : tb).
Arguments D_bin {P}. Arguments D_xml {P}.

Section Detect.
  Variable P : parser.
  Variable strtod : bytes -> option Z.
  Variable erange : bool.
  Variable val : option mktime_t.

  (** A new [XmlUnMarshaller_t] of the builder is given the data (frpcunmarshaller.cc 98-99, 104-105). *)
  Definition d_xml (t : tb) (data : bytes) : res (detected P) :=
    let '(p, batch, code) := ps_take P (ps_init P) data in
    match x_unmarshall (tb_step val) strtod erange TYPE_ANY xun_init t data batch code with
    | (u, t', None) => Ok (D_xml p u t')
    | (_, _, Some (Exn e)) => Err e
    | (_, _, Some Undef) => UB
    end.
  (** A new [BinUnMarshaller_t] of the builder is given the data (frpcunmarshaller.cc 109-110). *)
  Definition d_bin (t : tb) (data : bytes) : res (detected P) :=
    match unmarshall tb (tb_step val) TYPE_ANY unm_init t data with
    | (u, t', None) => Ok (D_bin u t')
    | (_, _, Some (Exn e)) => Err e
    | (_, _, Some Undef) => UB
    end.
  (** The builder an unmarshaller works for. *)
  Definition d_builder (d : detected P) : tb := match d with D_bin _ t => t | D_xml _ _ t => t end.

  (** [UnMarshaller_t::create(data, size, dataBuilder)] (frpcunmarshaller.cc 90-115).  The unmarshaller made for less than
      four bytes is not used any more (and leaks), but what it has built stays built.  [memcmp] of two bytes: undefined if
      there are less. *)
  Definition detect (t : tb) (data : bytes) : res (detected P) :=
    bind (if blen data <? 4 then bind (d_xml t data) (fun d => Ok (d_builder d)) else Ok t) (fun t =>
    match data with
    | a :: b :: _ => if (b2z a =? 202) && (b2z b =? 17) then d_bin t data else d_xml t data
    | _ => UB
    end).

  (** [unMarshall(data, size, want)] of the unmarshaller made (frpcbinunmarshaller.cc, frpcxmlunmarshaller.cc). *)
  Definition d_take (want : Z) (d : detected P) (data : bytes) : res (detected P) :=
    match d with
    | D_bin u t =>
        match unmarshall tb (tb_step val) want u t data with
        | (u', t', None) => Ok (D_bin u' t') | (_, _, Some (Exn e)) => Err e | (_, _, Some Undef) => UB
        end
    | D_xml p u t =>
        let '(p', batch, code) := ps_take P p data in
        match x_unmarshall (tb_step val) strtod erange want u t data batch code with
        | (u', t', None) => Ok (D_xml p' u' t') | (_, _, Some (Exn e)) => Err e | (_, _, Some Undef) => UB
        end
    end.
  Fixpoint d_takes (want : Z) (d : detected P) (pieces : list bytes) : res (detected P) :=
    match pieces with
    | [] => Ok d
    | x :: r => bind (d_take want d x) (fun d' => d_takes want d' r)
    end.
  (** [finish()] of it: what has been built (frpcbinunmarshaller.cc 791-795, frpcxmlunmarshaller.cc 262-266). *)
  Definition d_finish (d : detected P) : res tb :=
    match d with
    | D_bin u t => bind (unm_finish u) (fun _ => Ok t)
    | D_xml p u t =>
        let '(_, batch, code) := ps_take P p [] in
        match x_finish (tb_step val) strtod erange u t batch code with
        | (_, t', None) => Ok t' | (_, _, Some (Exn e)) => Err e | (_, _, Some Undef) => UB
        end
    end.
  (** A message read by a user of [create]: the first piece makes the unmarshaller, the others follow. *)
  Definition auto_read (want : Z) (first : bytes) (rest : list bytes) : res tb :=
    bind (detect tb_init first) (fun d => bind (d_takes want d rest) d_finish).
End Detect.
