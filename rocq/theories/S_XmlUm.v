(** What is expected of the XML parser, independently of the unmarshaller. *)
From Verif Require Import Base Value M_Marshal M_TreeBuilder M_Xml M_XmlUm S_Http S_Xml.

(** The callbacks made for each of the pieces of a text, no error being found. *)
Inductive reports (P : parser) : ps_state P -> list bytes -> list (list sax) -> ps_state P -> Prop :=
| reports_nil : forall s, reports P s [] [] s
| reports_piece : forall s d s1 batch pieces batches s2, ps_take P s d = (s1, batch, 0) ->
    reports P s1 pieces batches s2 -> reports P s (d :: pieces) (batch :: batches) s2.

(** The parser reports every well formed document of the part of XML in S_Xml, however it is cut. *)
Definition faithful (P : parser) : Prop :=
  forall text doc pieces, xml_doc text = Some doc -> arrives text pieces ->
  exists batches s s' last, reports P (ps_init P) pieces batches s /\ ps_take P s [] = (s', last, 0) /\
    delivery text (combine pieces batches) last.

(** The parser calls back for start and end tags that match, and the errors it finds have numbers the unmarshaller has a text
    for, or takes for unknown. *)
Definition orderly (P : parser) : Prop :=
  forall pieces batches s d s' batch code, reports P (ps_init P) pieces batches s -> ps_take P s d = (s', batch, code) ->
  nested_sax [] (concat batches ++ batch) /\ (code < 102 \/ 816 <= code).

(** A fault is the last thing in a document: no method name anywhere, and no call or response begins after it. *)
Definition fault_last (l : list sax) : Prop :=
  forall a b, l = a ++ SStart (str "fault") :: b ->
  ~ In (SStart (str "methodName")) (a ++ b) /\ ~ In (SStart (str "methodCall")) b /\ ~ In (SStart (str "methodResponse")) b.
Definition plain_faults (P : parser) : Prop :=
  forall pieces batches s d s' batch code, reports P (ps_init P) pieces batches s -> ps_take P s d = (s', batch, code) -> fault_last (concat batches ++ batch).
