(** The XML unmarshaller with its tree builder behind [UnMarshaller_t] (src/frpcxmlunmarshaller.cc, src/frpcxmlunmarshaller.h),
    over an XML parser. *)
From Verif Require Import Base Value Text M_Marshal M_BinUnmarshal M_TreeBuilder M_Base64 M_Iso M_Url M_Registry M_Xml.

(** libxml2's push parser ([xmlCreatePushParserCtxt], [xmlParseChunk]; not modelled further): given a piece of text, the empty
    one being the end of the document, the callbacks it makes and the number of the error it finds, 0 if none. *)
Record parser : Type := mkParser {
  ps_state : Type;
  ps_init : ps_state;
  ps_take : ps_state -> bytes -> ps_state * list sax * Z
}.

(** The object and its builder (frpcxmlunmarshaller.cc 262-321): [unMarshall(data, size, want)], [finish], [getProtocolVersion].  The parser has
    taken the text also when [x_sniff] throws before it is given to it; after an exception neither is used again. *)
Definition xml_um (P : parser) (strtod : bytes -> option Z) (erange : bool) (val : option mktime_t) (want : Z) : unmarshaller :=
  mkUm (ps_state P * xun * tb) (ps_init P, xun_init, tb_init)
    (fun s d => let '(p, u, t) := s in
                let '(p', batch, code) := ps_take P p d in
                let '(u', t', f) := x_unmarshall (tb_step val) strtod erange want u t d batch code in ((p', u', t'), f))
    (fun s => let '(p, u, t) := s in
              let '(p', batch, code) := ps_take P p [] in
              let '(u', t', f) := x_finish (tb_step val) strtod erange u t batch code in
              ((p', u', t'), match f with None => Ok tt | Some (Exn e) => Err e | Some Undef => UB end))
    (fun s => x_ver (snd (fst s))) snd.
