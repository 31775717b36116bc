(** The text of XML response bodies. *)
From Verif Require Import M_Base M_Storage M_Ops.

(* Escaping of character data by xml-rs ([escape_str_pcdata], called for [XmlEvent::characters] at
   /repo/src/utils/xml.rs:57,65).  Whether '>' is escaped too differs between the releases that
   /repo/Cargo.toml:69 admits; [gt] says so. *)
Definition escape_char (gt : bool) (a : ascii) : bytes :=
  if aeq a "<" then B "&lt;"
  else if aeq a "&" then B "&amp;"
  else if gt && aeq a ">" then B "&gt;"
  else [a].
(* The same for a text, /repo/src/utils/xml.rs:57,65. *)
Definition escape (gt : bool) (t : bytes) : bytes := flat_map (escape_char gt) t.

(* [stack] and [element], /repo/src/utils/xml.rs:35-39,55-59: start tag, content, end tag, with
   the default configuration of [EventWriter::new] (no indentation; an element for which nothing
   at all was written between start and end is written as an empty-element tag). *)
Fixpoint xml_element (gt : bool) (x : xml) : bytes :=
  match x with
  | XText n t => B "<" ++ n ++ B ">" ++ escape gt t ++ B "</" ++ n ++ B ">"
  | XStack n [] => B "<" ++ n ++ B " />"
  | XStack n xs => B "<" ++ n ++ B ">" ++ flat_map (xml_element gt) xs ++ B "</" ++ n ++ B ">"
  end.

(* [set_xml_body], /repo/src/utils/response.rs:70-89: the declaration and the document. *)
Definition xml_declaration : bytes := B "<?xml version=""1.0"" encoding=""UTF-8""?>".
(* The whole body, /repo/src/utils/response.rs:77-84. *)
Definition xml_body_text (gt : bool) (x : xml) : bytes := xml_declaration ++ xml_element gt x.
