(** What the declarations of RIDL files mean: which declarations a file exports, and which schema
    element a declaration stands for. *)
From Verif Require Import Base BigSpec Ast Parser Schema TypeSpec Ridl LoadSpec.

(** ** Which declarations a file provides *)

(** [Exports fs decls name q id d]: the file [q] provides the declaration [d].  [decls] lists the
    declarations of interest (types, errors, services) in one file; [id] = (file, index) tells where
    [d] is written.  A file provides its own declarations, and of an imported file those the import
    asks for: all, or those whose name is listed. *)
Inductive Exports (fs : list (string * string)) {D} (decls : list node -> list D) (name : D -> string)
  : string -> ident -> D -> Prop :=
| Own q nodes k d :
    Source fs q nodes -> nth_error (decls nodes) k = Some d -> Exports fs decls name q (q, k) d
| Imported q nodes i id d :
    Source fs q nodes -> In i (imports nodes) -> Exports fs decls name (importTarget q i) id d ->
    i_members i = [] \/ In (name d) (i_members i) ->
    Exports fs decls name q id d.

(** ** What a declaration stands for *)

(** a comment is kept as its lines *)
Definition LF : string := String "010"%char "".
Definition Lines (c : string) (l : list string) : Prop :=
  (c = "" /\ l = []) \/
  (c <> "" /\ join LF l = c /\ Forall (fun s => contains_byte "010"%char s = false) l).

(** a reference written [e]; [Hole e]: a component is missing in [e], such as map<string,> *)
Definition RefTo (e : string) (o : option varType) : Prop :=
  exists v, o = Some v /\ (Hole e \/ vt_expr v = e).

Definition MetaOf (l : list (string * string)) : list metaMap := map (fun kv => [(fst kv, Some (snd kv))]) l.

Definition FieldOf (d : defNode) (f : field) : Prop :=
  f_name f = d_left d /\ f_optional f = d_optional d /\ f_value f = "" /\ f_meta f = MetaOf (d_meta d) /\
  Lines (d_comment d) (f_comments f) /\ RefTo (d_right d) (f_type f).

(** the member number [i] of an enum: its value is the declared one, or else its name (for enums over
    string) or its number in decimal *)
Definition MemberOf (isString : bool) (i : nat) (d : defNode) (f : field) : Prop :=
  f_name f = d_left d /\ f_optional f = false /\ f_type f = None /\ f_meta f = [] /\
  Lines (d_comment d) (f_comments f) /\
  (d_right d <> "" -> f_value f = d_right d) /\
  (d_right d = "" -> f_value f = if isString then d_left d else itoa i).

Inductive tdecl := DAlias (a : aliasNode) | DEnum (e : enumNode) | DStruct (s : structNode).
Definition typeDecls (nodes : list node) : list tdecl :=
  map DAlias (typeAliases nodes) ++ map DEnum (enums nodes) ++ map DStruct (structs nodes).
Definition declName (d : tdecl) : string :=
  match d with DAlias a => al_name a | DEnum e => e_name e | DStruct s => s_name s end.
Definition declKind (d : tdecl) : string :=
  match d with DAlias _ => "alias" | DEnum _ => "enum" | DStruct _ => "struct" end.

Definition TypeOf (d : tdecl) (t : type) : Prop :=
  t_name t = declName d /\ t_kind t = declKind d /\
  match d with
  | DAlias a =>
      t_fields t = [] /\ t_meta t = MetaOf (al_meta a) /\ Lines (al_comment a) (t_comments t) /\
      exists v, t_type t = Some v /\ vt_expr v = al_type a
  | DEnum e =>
      t_meta t = [] /\ t_comments t = [] /\
      (exists v, t_type t = Some v /\ vt_expr v = e_type e) /\
      length (t_fields t) = length (e_values e) /\
      forall i d f, nth_error (e_values e) i = Some d -> nth_error (t_fields t) i = Some f ->
        MemberOf (String.eqb (e_type e) "string") i d f
  | DStruct s =>
      t_type t = None /\ t_meta t = [] /\ Lines (s_comment s) (t_comments t) /\
      Forall2 FieldOf (s_fields s) (t_fields t)
  end.

Definition errName (en : errorNode) : string := trim_space (er_name en).
(** a number as the loader takes it: a decimal numeral, but at most 2^31-1; 0 for anything else *)
Definition Number (s : string) (z : Z) : Prop :=
  (exists n, DigitsOf s n /\ z = Z.min (Z.of_N n) 2147483647) \/ ((forall n, ~ DigitsOf s n) /\ z = 0%Z).
Definition ErrorOf (en : errorNode) (x : error) : Prop :=
  x_name x = errName en /\ x_message x = er_message en /\ Number (er_code en) (x_code x) /\
  match er_status en with Some s => Number s (x_status x) | None => x_status x = 400%Z end.

Definition ArgOf (a : argNode) (g : arg) : Prop :=
  g_name g = a_name a /\ g_optional g = a_optional a /\ RefTo (a_type a) (g_type g).

(** [t] is [s] with its first letter in lower case *)
Definition LowerFirst (s t : string) : Prop :=
  s = EmptyString /\ t = EmptyString \/
  exists c r, s = String c r /\
    ((65 <= N_of_byte c <= 90)%N /\ t = String (byte_of_N (N_of_byte c + 32)) r \/
     ~ (65 <= N_of_byte c <= 90)%N /\ t = s).

(** the short form (Name): one argument, named after the struct, of that type; the struct is found
    ignoring case *)
Definition ShortArg (l : list argNode) (gs : list arg) : Prop :=
  exists a n g T, l = [a] /\ a_inline a = Some n /\ gs = [g] /\ to_lower T = to_lower n /\
    LowerFirst T (g_name g) /\ g_optional g = false /\ RefTo T (g_type g).

(** annotations by type; of several with the same type the last counts *)
Definition AnnotationsOf (l : list annNode) (m : annotations) : Prop :=
  NoDup (map fst m) /\
  forall k, assoc k m = option_map (fun a => (k, match an_value a with Some v => v | None => "" end))
                          (find (fun a => String.eqb (an_type a) k) (rev l)).

Definition MethodOf (mn : methodNode) (m : method) : Prop :=
  me_name m = m_name mn /\ Lines (m_comment mn) (me_comments m) /\
  me_stream_in m = m_in_stream mn /\ me_stream_out m = m_out_stream mn /\ me_errors m = m_errors mn /\
  AnnotationsOf (m_annotations mn) (me_annotations m) /\
  (if me_succinct m
   then ShortArg (m_inputs mn) (me_inputs m) /\ ShortArg (m_outputs mn) (me_outputs m)
   else Forall2 ArgOf (m_inputs mn) (me_inputs m) /\ Forall2 ArgOf (m_outputs mn) (me_outputs m)).

Definition ServiceOf (sn : serviceNode) (v : service) : Prop :=
  v_name v = sv_name sn /\ Lines (sv_comment sn) (v_comments v) /\
  Forall2 MethodOf (sv_methods sn) (v_methods v).
