(** Model of schema/ridl/parser_node.go: the parse tree.
    Simplification: a node keeps the text of its tokens (and the line of an
    annotation, which service_parser.go 55-56 reads); token offsets stored by
    newTokenNode (parser_node.go 196-204) are never read and are dropped.  A nil
    token node prints as "" (parser_node.go 166-178) and is modelled as "". *)
From Verif Require Import Base.

(** parser_node.go 146-156 DefinitionNode; [d_meta] holds the (left, right) of
    the nested definitions *)
Record defNode := Def { d_left : string; d_right : string; d_optional : bool;
                        d_meta : list (string * string); d_comment : string }.

(** parser_node.go 217-222 *)
Record importNode := Imp { i_path : string; i_members : list string }.

(** parser_node.go 239-247 *)
Record enumNode := Enum { e_name : string; e_type : string; e_values : list defNode;
                          e_comment : string; e_line : nat }.

(** parser_node.go 267-274 *)
Record structNode := Struct { s_name : string; s_fields : list defNode;
                              s_comment : string; s_line : nat }.

(** parser_node.go 290-297 *)
Record errorNode := ErrN { er_code : string; er_name : string; er_message : string;
                           er_status : option string }.

(** parser_node.go 307-315 *)
Record argNode := Arg { a_name : string; a_type : string; a_optional : bool;
                        a_inline : option string }.

(** parser_node.go 339-342; [an_line] is the line of the type token *)
Record annNode := Ann { an_type : string; an_line : nat; an_value : option string }.

(** parser_node.go 352-362 and 449-453 *)
Record methodNode := Method { m_name : string; m_proxy : bool; m_comment : string;
                              m_annotations : list annNode;
                              m_in_stream : bool; m_inputs : list argNode;
                              m_out_stream : bool; m_outputs : list argNode;
                              m_errors : list string }.

(** parser_node.go 400-407 *)
Record serviceNode := Service { sv_name : string; sv_methods : list methodNode;
                                sv_anns : list annNode; sv_comment : string }.

(** parser_node.go 423-431 *)
Record aliasNode := Alias { al_name : string; al_type : string;
                            al_meta : list (string * string);
                            al_comment : string; al_line : nat }.

(** parser_node.go 22-26 Node (the kinds that are emitted to the root) *)
Inductive node :=
| NDef (d : defNode)
| NImport (i : importNode)
| NEnum (e : enumNode)
| NStruct (s : structNode)
| NError (e : errorNode)
| NService (s : serviceNode)
| NAlias (a : aliasNode).

(** parser_node.go 51-59 and 65-140: Filter and the typed accessors *)
Definition definitions (l : list node) : list defNode :=
  flat_map (fun n => match n with NDef d => [d] | _ => [] end) l.
Definition imports (l : list node) : list importNode :=
  flat_map (fun n => match n with NImport d => [d] | _ => [] end) l.
Definition enums (l : list node) : list enumNode :=
  flat_map (fun n => match n with NEnum d => [d] | _ => [] end) l.
Definition structs (l : list node) : list structNode :=
  flat_map (fun n => match n with NStruct d => [d] | _ => [] end) l.
Definition errors_of (l : list node) : list errorNode :=
  flat_map (fun n => match n with NError d => [d] | _ => [] end) l.
Definition services_of (l : list node) : list serviceNode :=
  flat_map (fun n => match n with NService d => [d] | _ => [] end) l.
Definition typeAliases (l : list node) : list aliasNode :=
  flat_map (fun n => match n with NAlias d => [d] | _ => [] end) l.
