(** Model of the RIDL parser: schema/ridl/parser.go, parser_util.go,
    definition_parser.go, enum_parser.go, error_parser.go,
    error_list_parser.go, import_parser.go, struct_parser.go,
    type_alias_parser.go, type_parser.go and service_parser.go.

    The parser object (parser.go 39-49) is represented by the suffix of the
    token list that starts at its cursor (tokens[pos:]); rewinding to a saved
    position is going back to the saved suffix.  The state functions become the
    constructors of [pstate]; [step] runs one state function.  Error texts are
    kept to the part that does not depend on formatting. *)
From Verif Require Import Base Utf8 Lexer Tokenize Ast.

Definition toks := list token.

(** parser.go 35, 183-188 cursor *)
Definition eofTok : token := Tok TEOF "" 0 0 0.
Definition cursor (ts : toks) : token := match ts with [] => eofTok | t :: _ => t end.
(** parser.go 175-181 next *)
Definition pnext (ts : toks) : toks := match ts with [] => [] | _ :: r => r end.

(** result of a parsing function: value and cursor after it, or error and
    cursor where it stopped *)
Inductive pres (A : Type) : Type :=
| POk (a : A) (ts : toks)
| PErr (msg : string) (ts : toks)
| PFuel.
Arguments POk {A} _ _.
Arguments PErr {A} _ _.
Arguments PFuel {A}.

Definition errUnexpectedToken : string := "unexpected token".
Definition errUnexpectedEOF : string := "unexpected EOF".
Definition errUnexpectedEOL : string := "unexpected EOL".

(** parser_util.go 33-62 unescapeString.  [string(c)] on a byte encodes the
    byte as the rune with that number. *)
Fixpoint unescape (s : string) : result string :=
  match s with
  | EmptyString => Ok EmptyString
  | String c r =>
      if Ascii.eqb c "\"%char then
        match r with
        | EmptyString => Err "unexpected end after backslash"
        | String n r' =>
            if Ascii.eqb n "n"%char then do o <- unescape r'; Ok (String "010"%char o)
            else if Ascii.eqb n "t"%char then do o <- unescape r'; Ok (String "009"%char o)
            else if Ascii.eqb n """"%char then do o <- unescape r'; Ok (String n o)
            else Err "unexpected character after backslash"
        end
      else do o <- unescape r; Ok (encode_rune (N_of_byte c) ++ o)%string
  end.

(** parser.go 498-521 composedValue *)
Definition composedValue (l : list token) : result token :=
  match l with
  | [] => Err "expecting token"
  | b :: _ =>
      do v <- unescape (sconcat (map val l));
      Ok (Tok TComposed v 0 (line b) (col b))
  end.

(** return composedValue(...) with the cursor at [ts] *)
Definition composeAt (l : list token) (ts : toks) : pres token :=
  match composedValue l with
  | Ok t => POk t ts
  | Err e => PErr e ts
  | Panic => PFuel
  | OutOfFuel => PFuel
  end.

(** parser.go 113-130 continueUntilEOL (never returns an error) *)
Fixpoint continueUntilEOL (ts : toks) : toks :=
  match ts with
  | [] => []
  | t :: r => if tt_eqb (ty t) TNewLine || tt_eqb (ty t) TEOF then ts
              else continueUntilEOL r
  end.

(** parser.go 132-158 expectOptionalCommentOrEOL *)
Fixpoint expectEOL (ts : toks) : pres unit :=
  match ts with
  | [] => POk tt []
  | t :: r =>
      match ty t with
      | TWhitespace => expectEOL r
      | TEOF | TNewLine => POk tt ts
      | THash => POk tt (continueUntilEOL ts)
      | _ => PErr errUnexpectedToken ts
      end
  end.

(** parser.go 263-308 match.  [start] is the cursor to rewind to. *)
Fixpoint matchGo (start ts : toks) (want : list ttype) (acc : list token)
  : pres (list token) :=
  match want with
  | [] => POk (rev acc) ts
  | e :: w =>
      let t := cursor ts in
      if tt_eqb (ty t) e then matchGo start (pnext ts) w (t :: acc)
      else if tt_eqb e TEOL then
        match expectEOL ts with
        | POk _ ts' => POk (rev (Tok TEOL "" 0 (line t) (col t) :: acc)) ts'
        | PErr m ts' => PErr m ts'
        | PFuel => PFuel
        end
      else if tt_eqb e TWhitespace then
        matchGo start ts w (Tok TWhitespace " " 0 (line t) (col t) :: acc)
      else PErr "expecting another token" start
  end.
Definition pmatch (want : list ttype) (ts : toks) : pres (list token) :=
  matchGo ts ts want [].

(** parser.go 198-227: the loop of expectStringValue *)
Fixpoint strLoop (ts : toks) (acc : list token) : pres (list token) :=
  match ts with
  | [] => PErr errUnexpectedEOF []
  | t :: r =>
      match ty t with
      | TNewLine => PErr errUnexpectedEOL r
      | TEOF => PErr errUnexpectedEOF r
      | TBackslash => match r with
                      | [] => PErr errUnexpectedEOF []
                      | t2 :: r2 => strLoop r2 (t2 :: t :: acc)
                      end
      | TQuote => POk (rev acc) r
      | _ => strLoop r (t :: acc)
      end
  end.

(** parser.go 190-230 expectStringValue *)
Definition expectStringValue (ts : toks) : pres token :=
  if tt_eqb (ty (cursor ts)) TQuote then
    match strLoop (pnext ts) [] with
    | POk l ts' => composeAt l ts'
    | PErr m ts' => PErr m ts'
    | PFuel => PFuel
    end
  else PErr "strings must start with a quote" (pnext ts).

(** parser.go 232-261 expectLiteralValue ([dots] = false) and
    import_parser.go 114-143 expectPath ([dots] = true) *)
Fixpoint litLoop (dots : bool) (ts : toks) (acc : list token) : pres token :=
  match ts with
  | [] => composeAt (rev acc) []
  | t :: r =>
      match ty t with
      | TQuote => expectStringValue ts
      | TWord | TSlash => litLoop dots r (t :: acc)
      | TDot => if dots then litLoop dots r (t :: acc) else composeAt (rev acc) ts
      | _ => composeAt (rev acc) ts
      end
  end.
Definition expectLiteralValue (ts : toks) : pres token := litLoop false ts [].
Definition expectPath (ts : toks) : pres token := litLoop true ts [].

(** parser.go 318-340: the loop of expectMetadataKey *)
Fixpoint metaKeyLoop (ts : toks) (acc : list token) : pres token :=
  match ts with
  | [] => PErr errUnexpectedToken []
  | t :: r =>
      match ty t with
      | TQuestion | TWhitespace | TEqual => composeAt (rev acc) ts
      | TWord => metaKeyLoop r (t :: acc)
      | TDot => match r with
                | t2 :: r2 => if tt_eqb (ty t2) TWord
                              then metaKeyLoop r2 (t2 :: t :: acc)
                              else PErr "expecting another token" ts
                | [] => PErr "expecting another token" ts
                end
      | _ => PErr errUnexpectedToken ts
      end
  end.

(** parser.go 310-343 expectMetadataKey *)
Definition expectMetadataKey (ts : toks) : pres token :=
  match pmatch [TWord] ts with
  | POk l ts' => metaKeyLoop ts' l
  | PErr m ts' => PErr m ts'
  | PFuel => PFuel
  end.

(** parser.go 345-372 expectMetadataValue *)
Fixpoint metaValLoop (ts : toks) (acc : list token) : pres token :=
  match ts with
  | [] => composeAt (rev acc) []
  | t :: r =>
      match ty t with
      | TWhitespace | TNewLine | TEOF => composeAt (rev acc) ts
      | _ => metaValLoop r (t :: acc)
      end
  end.
Definition expectMetadataValue (ts : toks) : pres token :=
  if tt_eqb (ty (cursor ts)) TQuote then expectStringValue ts
  else metaValLoop ts [].

(** type_parser.go 187-245 expectType, 7-45 expectMapDefinition,
    145-185 expectTypeList: mutually recursive; each loop iteration and each
    call takes one unit of fuel. *)
Fixpoint typeLoop (n : nat) (ts : toks) (acc : list token) {struct n} : pres token :=
  match n with
  | O => PFuel
  | S n =>
      let t := cursor ts in
      match ty t with
      | TNewLine | TWhitespace | TComma | TBar | TCloseAngle | TCloseParen | THash
      | TEOF => composeAt (rev acc) ts
      | TOpenBracket =>
          match pmatch [TOpenBracket; TCloseBracket] ts with
          | POk brs ts1 =>
              match typeLoop n ts1 [] with
              | POk tn ts2 => typeLoop n ts2 (tn :: rev brs ++ acc)
              | e => e
              end
          | PErr m ts1 => PErr m ts1
          | PFuel => PFuel
          end
      | TWord =>
          if String.eqb (val t) "map" then
            match mapLoop n (pnext ts) [t] with
            | POk mt ts1 => typeLoop n ts1 (mt :: acc)
            | e => e
            end
          else if String.eqb (val t) "stream" || String.eqb (val t) "struct"
          then PErr errUnexpectedToken ts
          else typeLoop n (pnext ts) (t :: acc)
      | _ => PErr errUnexpectedToken ts
      end
  end
with mapLoop (n : nat) (ts : toks) (acc : list token) {struct n} : pres token :=
  match n with
  | O => PFuel
  | S n =>
      match ty (cursor ts) with
      | TWhitespace => mapLoop n (pnext ts) acc
      | TCloseAngle => composeAt (rev acc) (pnext ts)
      | TOpenAngle =>
          match typeListLoop n (pnext ts) [cursor ts] with
          | POk tl ts1 => mapLoop n ts1 (tl :: acc)
          | e => e
          end
      | _ => PErr errUnexpectedToken ts
      end
  end
with typeListLoop (n : nat) (ts : toks) (acc : list token) {struct n} : pres token :=
  match n with
  | O => PFuel
  | S n =>
      let t := cursor ts in
      match ty t with
      | TWhitespace => typeListLoop n (pnext ts) acc
      | TCloseAngle => composeAt (rev (t :: acc)) ts
      | TComma | TBar => typeListLoop n (pnext ts) (t :: acc)
      | TWord | TOpenBracket =>
          match typeLoop n ts [] with
          | POk tn ts1 => typeListLoop n ts1 (tn :: acc)
          | e => e
          end
      | _ => PErr errUnexpectedToken ts
      end
  end.

(** the fuel that is always enough, see ParserProofs.v *)
Definition typeFuel (ts : toks) : nat := 2 * length ts + 2.
Definition expectType (ts : toks) : pres token := typeLoop (typeFuel ts) ts [].

(** type_parser.go 64-140: the loop of expectArgumentList *)
Fixpoint argLoop (n : nat) (ts : toks) (acc : list argNode) : pres (list argNode) :=
  match n with
  | O => PFuel
  | S n =>
      match ty (cursor ts) with
      | TWhitespace => argLoop n (pnext ts) acc
      | TCloseParen => POk (rev acc) (pnext ts)
      | TComma => argLoop n (pnext ts) acc
      | TBar => argLoop n (pnext ts) acc
      | TWord =>
          match pmatch [TWord; TCloseParen] ts with
          | POk l ts1 =>
              (* succinct form; note the extra p.next() on line 97 *)
              POk (rev (Arg "" "" false (Some (val (cursor l))) :: acc)) (pnext ts1)
          | _ =>
              let arg opt l ts1 :=
                match expectType ts1 with
                | POk vt ts2 =>
                    argLoop n ts2 (Arg (val (cursor l)) (val vt) opt None :: acc)
                | PErr m ts2 => PErr m ts2
                | PFuel => PFuel
                end in
              match pmatch [TWord; TQuestion; TColon; TWhitespace] ts with
              | POk l ts1 => arg true l ts1
              | _ =>
                  match pmatch [TWord; TColon; TWhitespace] ts with
                  | POk l ts1 => arg false l ts1
                  | PErr m ts1 => PErr m ts1
                  | PFuel => PFuel
                  end
              end
          end
      | _ => PErr errUnexpectedToken ts
      end
  end.

(** type_parser.go 47-143 expectArgumentList *)
Definition expectArgumentList (ts : toks) : pres (list argNode) :=
  let parens ts :=
    match pmatch [TOpenParen] ts with
    | POk _ ts1 => argLoop (S (length ts1)) ts1 []
    | PErr m ts1 => PErr m ts1
    | PFuel => PFuel
    end in
  match pmatch [TWord; TWhitespace] ts with
  | POk l ts1 => if String.eqb (val (cursor l)) "stream" then parens ts1
                 else PErr errUnexpectedToken ts1
  | _ => parens ts
  end.

(** error_list_parser.go 5-26 expectErrorList *)
Fixpoint errListLoop (n : nat) (ts : toks) (acc : list string) : pres (list string) :=
  match n with
  | O => PFuel
  | S n =>
      match pmatch [TWhitespace; TBar; TWhitespace; TWord] ts with
      | POk l ts1 => errListLoop n ts1 (val (nth 3 l eofTok) :: acc)
      | _ => POk (rev acc) ts
      end
  end.
Definition expectErrorList (ts : toks) : pres (list string) :=
  match pmatch [TWhitespace; TWord] ts with
  | POk l ts1 => errListLoop (S (length ts1)) ts1 [val (nth 1 l eofTok)]
  | PErr m ts1 => PErr m ts1
  | PFuel => PFuel
  end.

(** service_parser.go 184-236 parseAnnotations.  [seen] is annotationsMap. *)
Fixpoint annLoop (n : nat) (ts : toks) (seen : list string) (acc : list annNode)
  : pres (list annNode) :=
  match n with
  | O => PFuel
  | S n =>
      match pmatch [TAt; TWord] ts with
      | POk l ts1 =>
          let t := nth 1 l eofTok in
          if str_in (val t) seen then PErr "duplicate annotation type" ts1
          else
            let seen' := val t :: seen in
            if tt_eqb (ty (cursor ts1)) TColon then
              let ts2 := pnext ts1 in
              match ty (cursor ts2) with
              | TWord =>
                  annLoop n (pnext ts2) seen'
                    (Ann (val t) (line t) (Some (val (cursor ts2))) :: acc)
              | TQuote =>
                  match expectStringValue ts2 with
                  | POk v ts3 =>
                      annLoop n (pnext ts3) seen'
                        (Ann (val t) (line t) (Some (val v)) :: acc)
                  | PErr m ts3 => PErr "parse string value" ts3
                  | PFuel => PFuel
                  end
              | _ => annLoop n (pnext ts2) seen' (Ann (val t) (line t) None :: acc)
              end
            else annLoop n ts1 seen' (Ann (val t) (line t) None :: acc)
      | _ => POk (rev acc) ts
      end
  end.
Definition parseAnnotations (ts : toks) : pres (list annNode) :=
  annLoop (S (length ts)) ts [] [].

(** ** Comments: parser.go 523-566 parseComments *)
Fixpoint getComment (n : nat) (m : comments) : option string :=
  match m with
  | [] => None
  | (k, v) :: r => if k =? n then Some v else getComment n r
  end.
Definition delComment (n : nat) (m : comments) : comments :=
  filter (fun kv => negb (fst kv =? n)) m.

(** lines 531-556; [c] is in the order of the reading (bottom up) *)
Fixpoint pcLoop (cl : nat) (iteration : nat) (c : list string) (m : comments)
  : list string * comments :=
  match getComment cl m with
  | Some s =>
      let c' := if has_prefix "!" s then c else c ++ [s] in
      let m' := delComment cl m in
      match m' with
      | [] => (c', m')
      | _ => match cl with O => (c', m') | S k => pcLoop k 1 c' m' end
      end
  | None =>
      match c with
      | _ :: _ => (c, m)
      | [] => if 1 <? S iteration then (c, m)
              else match cl with O => (c, m) | S k => pcLoop k (S iteration) c m end
      end
  end.
Definition parseComments (m : comments) (currentLine : nat) : string * comments :=
  match m with
  | [] => ("", m)
  | _ => let (c, m') := pcLoop currentLine 0 [] m in (join (String "010"%char "") (rev c), m')
  end.

(** parser_util.go 15-31 expectNumber, applied to a word token *)
Definition isNumber (s : string) : bool := sforall is_digit_byte s.

(** ** The state machine *)

(** parser.go 37: one constructor per state function; arguments are the
    captured variables. *)
Inductive pstate :=
| SDefault | SDeclaration | SSpace | SNewLine | SComment | SEOF | SEOL | SContinue
| SDefinition | SDefinitionValue (d : defNode)
| SEnum | SEnumDefinition (e : enumNode) | SEnumExplicitValue (e : enumNode) (d : defNode)
| SError | SErrorMessage (e : errorNode) | SErrorStatus (e : errorNode)
| SImport | SImportValue | SImportMembers (i : importNode)
| STypeAlias | STypeAliasMeta (a : aliasNode) | STypeAliasMetaDef (a : aliasNode)
| SStruct | SStructField (s : structNode) | SStructFieldDef (s : structNode)
| SStructFieldMeta (s : structNode) | SStructFieldMetaDef (s : structNode)
| SService | SServiceMethod (s : serviceNode) | SServiceMethodDef (s : serviceNode).

(** parser.go 160-165 stateError: where the error is reported *)
Record perror := PE { pe_line : nat; pe_col : nat; pe_near : string; pe_msg : string }.

Record pconf := PC { p_state : pstate; p_toks : toks; p_comments : comments;
                     p_out : list node }.    (* emitted nodes, latest first *)

Inductive pstep :=
| Next (c : pconf)
| Done (out : list node)
| Fail (e : perror)
| NoFuel.

(** parser.go 160-165 *)
Definition stateError (msg : string) (ts : toks) : pstep :=
  let t := cursor ts in Fail (PE (line t) (col t) (val t) msg).

(** continue after a parsing function: the error goes to stateError *)
Definition onOk {A} (r : pres A) (k : A -> toks -> pstep) : pstep :=
  match r with
  | POk a ts => k a ts
  | PErr m ts => stateError m ts
  | PFuel => NoFuel
  end.

(** struct_parser.go 4-6, 32-35: append the meta entry to the latest field *)
Definition addMeta (s : structNode) (kv : string * string) : structNode :=
  match rev (s_fields s) with
  | [] => s
  | f :: r =>
      Struct (s_name s)
        (rev r ++ [Def (d_left f) (d_right f) (d_optional f) (d_meta f ++ [kv]) (d_comment f)])
        (s_comment s) (s_line s)
  end.

Definition hasDup (l : list string) : bool :=
  (fix go l := match l with [] => false | x :: r => str_in x r || go r end) l.

(** service_parser.go 117-121: the method is added to the service and the
    pending annotations are cleared *)
Definition finishMethod (s : serviceNode) (cm : comments) (out : list node)
  (m : methodNode) (ts : toks) : pstep :=
  Next (PC (SServiceMethod (Service (sv_name s) (sv_methods s ++ [m]) [] (sv_comment s)))
           ts cm out).

(** service_parser.go 100-115: the optional errors clause; any other word is
    consumed *)
Definition methodErrors (finish : list string -> toks -> pstep) (ts5 : toks) : pstep :=
  match pmatch [TWhitespace; TWord] ts5 with
  | POk l6 ts6 =>
      if String.eqb (val (nth 1 l6 eofTok)) "errors" then
        onOk (expectErrorList ts6) finish
      else finish [] ts6
  | _ => finish [] ts5
  end.

(** service_parser.go 72-98: the optional outputs *)
Definition methodOutputs (finish : bool -> list argNode -> list string -> toks -> pstep)
  (ts3 : toks) : pstep :=
  match pmatch [TWhitespace; TRocket; TWhitespace] ts3 with
  | POk _ ts4 =>
      let outputs (os : bool) (ts : toks) : pstep :=
        onOk (expectArgumentList ts) (fun outs ts5 => methodErrors (finish os outs) ts5) in
      match pmatch [TWord; TWhitespace] ts4 with
      | POk l5 ts5 => if String.eqb (val (cursor l5)) "stream" then outputs true ts5
                      else stateError errUnexpectedToken ts5
      | _ => outputs false ts4
      end
  | _ => methodErrors (finish false []) ts3
  end.

(** service_parser.go 48-121: from the method name on *)
Definition methodRest (s : serviceNode) (cm : comments) (out : list node)
  (isStream isProxy : bool) (commentLine : nat) (name : string) (ts2 : toks) : pstep :=
  let (com, cm') := parseComments cm commentLine in
  if isProxy then
    finishMethod s cm' out (Method name true com (sv_anns s) isStream [] false [] []) ts2
  else
    onOk (expectArgumentList ts2) (fun ins ts3 =>
    methodOutputs (fun os outs es ts =>
      finishMethod s cm' out (Method name false com (sv_anns s) isStream ins os outs es) ts) ts3).

(** service_parser.go 5-122 parseStateServiceMethodDefinition *)
Definition stepServiceMethodDef (s : serviceNode) (ts : toks) (cm : comments)
  (out : list node) : pstep :=
  if hasDup (map an_type (sv_anns s)) then stateError "duplicate annotation type" ts
  else
  onOk (pmatch [TMinus; TWhitespace; TWord] ts) (fun l ts1 =>
  let word := val (nth 2 l eofTok) in
  let isStream := String.eqb word "stream" in
  let isProxy := String.eqb word "proxy" in
  let commentLine :=
    match rev (sv_anns s) with
    | [] => line (nth 0 l eofTok)
    | a :: _ => an_line a
    end in
  if isStream || isProxy then
    onOk (pmatch [TWhitespace; TWord] ts1) (fun l2 ts2 =>
      methodRest s cm out isStream isProxy commentLine (val (nth 1 l2 eofTok)) ts2)
  else methodRest s cm out isStream isProxy commentLine word ts1).

(** one call of a state function *)
Definition step (c : pconf) : pstep :=
  let ts := p_toks c in
  let cm := p_comments c in
  let out := p_out c in
  let go s ts := Next (PC s ts cm out) in
  let goc s ts cm := Next (PC s ts cm out) in
  let emitTo (n : node) s ts := Next (PC s ts cm (n :: out)) in
  let t := cursor ts in
  match p_state c with
  (* parser.go 433-458 *)
  | SDefault =>
      match ty t with
      | TWhitespace => go SSpace ts
      | TNewLine => go SNewLine ts
      | TWord => go SDeclaration ts
      | THash => go SComment ts
      | TEOF => go SEOF ts
      | _ => stateError errUnexpectedToken ts
      end
  (* parser.go 390-431 *)
  | SDeclaration =>
      if negb (tt_eqb (ty t) TWord) then stateError errUnexpectedToken ts
      else if str_in (val t) ["webrpc"; "name"; "version"; "basepath"] then go SDefinition ts
      else if String.eqb (val t) "import" then go SImport ts
      else if String.eqb (val t) "error" then go SError ts
      else if String.eqb (val t) "enum" then go SEnum ts
      else if String.eqb (val t) "message" then
        stateError "keyword message was renamed to struct" ts
      else if String.eqb (val t) "type" then go STypeAlias ts
      else if String.eqb (val t) "struct" then go SStruct ts
      else if String.eqb (val t) "service" then go SService ts
      else stateError errUnexpectedToken ts
  (* parser.go 469-478: one call skips all whitespace tokens; the model skips
     one per step, which visits the same states *)
  | SSpace => go (if tt_eqb (ty (cursor (pnext ts))) TWhitespace then SSpace else SDefault) (pnext ts)
  (* parser.go 480-489, same remark *)
  | SNewLine => go (if tt_eqb (ty (cursor (pnext ts))) TNewLine then SNewLine else SDefault) (pnext ts)
  (* parser.go 383-388 *)
  | SComment => go SDefault (continueUntilEOL ts)
  (* parser.go 464-467 *)
  | SEOF => Done (rev out)
  (* parser.go 374-381 *)
  | SEOL => onOk (expectEOL ts) (fun _ ts1 => go SContinue ts1)
  (* parser.go 491-496 *)
  | SContinue => match ts with [] => go SEOF [] | _ :: r => go SDefault r end
  (* definition_parser.go 18-29 *)
  | SDefinition =>
      onOk (pmatch [TWord; TWhitespace; TEqual; TWhitespace] ts) (fun l ts1 =>
      let (com, cm') := parseComments cm (line (cursor l)) in
      goc (SDefinitionValue (Def (val (cursor l)) "" false [] com)) ts1 cm')
  (* definition_parser.go 3-16 *)
  | SDefinitionValue d =>
      onOk (expectLiteralValue ts) (fun v ts1 =>
      emitTo (NDef (Def (d_left d) (val v) false [] (d_comment d))) SEOL ts1)
  (* enum_parser.go 58-76 *)
  | SEnum =>
      onOk (pmatch [TWord; TWhitespace; TWord; TColon; TWhitespace; TWord; TEOL] ts) (fun l ts1 =>
      if String.eqb (val (nth 0 l eofTok)) "enum" then
        let (com, cm') := parseComments cm (line (nth 0 l eofTok)) in
        goc (SEnumDefinition (Enum (val (nth 2 l eofTok)) (val (nth 5 l eofTok)) [] com
                                   (line (nth 0 l eofTok)))) ts1 cm'
      else stateError errUnexpectedToken ts1)
  (* enum_parser.go 23-56 *)
  | SEnumDefinition e =>
      match ty t with
      | TMinus =>
          onOk (pmatch [TMinus; TWhitespace; TWord] ts) (fun l ts1 =>
          let (com, cm') := parseComments cm (line (nth 0 l eofTok)) in
          goc (SEnumExplicitValue e (Def (val (nth 2 l eofTok)) "" false [] com)) ts1 cm')
      | TNewLine | TWhitespace => go (SEnumDefinition e) (pnext ts)
      | THash => go (SEnumDefinition e) (continueUntilEOL ts)
      | _ => emitTo (NEnum e) SDefault ts
      end
  (* enum_parser.go 3-21 *)
  | SEnumExplicitValue e d =>
      match pmatch [TWhitespace; TEqual; TWhitespace] ts with
      | POk _ ts1 =>
          onOk (expectLiteralValue ts1) (fun v ts2 =>
          let (com, cm') := parseComments cm (line v) in
          goc (SEnumDefinition
                 (Enum (e_name e) (e_type e)
                    (e_values e ++ [Def (d_left d) (val v) false [] (d_comment d)])
                    com (e_line e))) ts2 cm')
      | _ => go (SEnumDefinition
                   (Enum (e_name e) (e_type e) (e_values e ++ [d]) (e_comment e) (e_line e))) ts
      end
  (* error_parser.go 8-27 *)
  | SError =>
      onOk (pmatch [TWord; TWhitespace; TWord; TWhitespace; TWord; TWhitespace] ts) (fun l ts1 =>
      if negb (String.eqb (val (nth 0 l eofTok)) "error") then stateError errUnexpectedToken ts1
      else if isNumber (val (nth 2 l eofTok)) then
        go (SErrorMessage (ErrN (val (nth 2 l eofTok)) (val (nth 4 l eofTok)) "" None)) ts1
      else stateError "expecting error code to be a number" ts1)
  (* error_parser.go 30-61 *)
  | SErrorMessage e =>
      match ty t with
      | TQuote =>
          onOk (expectStringValue ts) (fun v ts1 =>
          go (SErrorStatus (ErrN (er_code e) (er_name e) (val v) None)) ts1)
      | TWord => go (SErrorStatus (ErrN (er_code e) (er_name e) (val t) None)) (pnext ts)
      | _ => stateError "expected message" ts
      end
  (* error_parser.go 64-102 *)
  | SErrorStatus e =>
      match pmatch [TWhitespace; TWord] ts with
      | POk l ts1 =>
          let w := nth 1 l eofTok in
          if negb (String.eqb (val w) "HTTP")
          then stateError "expecting optional HTTP <status code>" (w :: ts1)
          else
            match pmatch [TWhitespace; TWord] ts1 with
            | POk l2 ts2 =>
                let n := nth 1 l2 eofTok in
                if isNumber (val n) then
                  onOk (expectEOL ts2) (fun _ ts3 =>
                  emitTo (NError (ErrN (er_code e) (er_name e) (er_message e) (Some (val n))))
                         SDefault ts3)
                else stateError "expecting HTTP status code to be a number" (n :: ts2)
            | PErr m ts2 => stateError "expecting <status code>" ts2
            | PFuel => NoFuel
            end
      | _ => onOk (expectEOL ts) (fun _ ts1 => emitTo (NError e) SDefault ts1)
      end
  (* import_parser.go 78-112 *)
  | SImport =>
      match pmatch [TWord; TEOL] ts with
      | POk l ts1 => if String.eqb (val (cursor l)) "import" then go SImportValue ts1
                     else stateError errUnexpectedToken ts1
      | PErr _ ts1 =>
          onOk (pmatch [TWhitespace] ts1) (fun _ ts2 =>
          onOk (expectPath ts2) (fun p ts3 =>
          go (SImportMembers (Imp (val p) [])) ts3))
      | PFuel => NoFuel
      end
  (* import_parser.go 39-76 *)
  | SImportValue =>
      match ty t with
      | TNewLine | TWhitespace => go SImportValue (pnext ts)
      | TMinus =>
          onOk (pmatch [TMinus; TWhitespace] ts) (fun _ ts1 =>
          onOk (expectPath ts1) (fun p ts2 =>
          emitTo (NImport (Imp (val p) [])) SImportValue ts2))
      | THash => go SImportValue (continueUntilEOL ts)
      | _ => go SDefault ts
      end
  (* import_parser.go 3-37 *)
  | SImportMembers i =>
      match ty t with
      | TNewLine | TWhitespace => go (SImportMembers i) (pnext ts)
      | TMinus =>
          onOk (pmatch [TMinus; TWhitespace] ts) (fun _ ts1 =>
          onOk (expectLiteralValue ts1) (fun m ts2 =>
          go (SImportMembers (Imp (i_path i) (i_members i ++ [val m]))) ts2))
      | THash => go (SImportMembers i) (continueUntilEOL ts)
      | _ => emitTo (NImport i) SDefault ts
      end
  (* type_alias_parser.go 58-82 *)
  | STypeAlias =>
      onOk (pmatch [TWord; TWhitespace; TWord; TColon; TWhitespace] ts) (fun l ts1 =>
      if negb (String.eqb (val (nth 0 l eofTok)) "type") then stateError errUnexpectedToken ts1
      else
        onOk (expectType ts1) (fun v ts2 =>
        let (com, cm') := parseComments cm (line (nth 0 l eofTok)) in
        goc (STypeAliasMeta (Alias (val (nth 2 l eofTok)) (val v) [] com
                                   (line (nth 0 l eofTok)))) ts2 cm'))
  (* type_alias_parser.go 35-56 *)
  | STypeAliasMeta a =>
      match ty t with
      | TNewLine | TWhitespace => go (STypeAliasMeta a) (pnext ts)
      | THash => go (STypeAliasMeta a) (continueUntilEOL ts)
      | TPlus => go (STypeAliasMetaDef a) ts
      | _ => emitTo (NAlias a) SDefault ts
      end
  (* type_alias_parser.go 3-33 *)
  | STypeAliasMetaDef a =>
      onOk (pmatch [TPlus; TWhitespace] ts) (fun _ ts1 =>
      onOk (expectMetadataKey ts1) (fun k ts2 =>
      onOk (pmatch [TWhitespace; TEqual; TWhitespace] ts2) (fun _ ts3 =>
      onOk (expectMetadataValue ts3) (fun v ts4 =>
      go (STypeAliasMeta (Alias (al_name a) (al_type a) (al_meta a ++ [(val k, val v)])
                                (al_comment a) (al_line a))) ts4))))
  (* struct_parser.go 129-146 *)
  | SStruct =>
      onOk (pmatch [TWord; TWhitespace; TWord] ts) (fun l ts1 =>
      if negb (String.eqb (val (nth 0 l eofTok)) "struct") then stateError errUnexpectedToken ts1
      else
        let (com, cm') := parseComments cm (line (nth 0 l eofTok)) in
        goc (SStructField (Struct (val (nth 2 l eofTok)) [] com (line (nth 0 l eofTok)))) ts1 cm')
  (* struct_parser.go 104-127 *)
  | SStructField s =>
      match ty t with
      | TNewLine | TWhitespace => go (SStructField s) (pnext ts)
      | THash => go (SStructField s) (continueUntilEOL ts)
      | TMinus => go (SStructFieldDef s) ts
      | _ => emitTo (NStruct s) SDefault ts
      end
  (* struct_parser.go 66-102 *)
  | SStructFieldDef s =>
      onOk (pmatch [TMinus; TWhitespace; TWord] ts) (fun l ts1 =>
      let (com, cm') := parseComments cm (line (nth 0 l eofTok)) in
      let body (opt : bool) (ts2 : toks) :=
        onOk (pmatch [TColon; TWhitespace] ts2) (fun _ ts3 =>
        onOk (expectType ts3) (fun v ts4 =>
        goc (SStructFieldMeta (Struct (s_name s)
               (s_fields s ++ [Def (val (nth 2 l eofTok)) (val v) opt [] com])
               (s_comment s) (s_line s))) ts4 cm')) in
      match pmatch [TQuestion] ts1 with
      | POk _ ts2 => body true ts2
      | _ => body false ts1
      end)
  (* struct_parser.go 41-64 *)
  | SStructFieldMeta s =>
      match ty t with
      | TNewLine | TWhitespace => go (SStructFieldMeta s) (pnext ts)
      | THash => go (SStructFieldMeta s) (continueUntilEOL ts)
      | TPlus => go (SStructFieldMetaDef s) ts
      | _ => go (SStructField s) ts
      end
  (* struct_parser.go 3-39 *)
  | SStructFieldMetaDef s =>
      onOk (pmatch [TPlus; TWhitespace] ts) (fun _ ts1 =>
      onOk (expectMetadataKey ts1) (fun k ts2 =>
      onOk (pmatch [TWhitespace; TEqual; TWhitespace] ts2) (fun _ ts3 =>
      onOk (expectMetadataValue ts3) (fun v ts4 =>
      go (SStructFieldMeta (addMeta s (val k, val v))) ts4))))
  (* service_parser.go 159-182 *)
  | SService =>
      onOk (pmatch [TWord; TWhitespace] ts) (fun l ts1 =>
      if negb (String.eqb (val (cursor l)) "service") then stateError errUnexpectedToken ts1
      else
        onOk (expectLiteralValue ts1) (fun n ts2 =>
        onOk (expectEOL ts2) (fun _ ts3 =>
        let (com, cm') := parseComments cm (line (cursor l)) in
        goc (SServiceMethod (Service (val n) [] [] com)) ts3 cm')))
  (* service_parser.go 124-157 *)
  | SServiceMethod s =>
      match ty t with
      | TNewLine | TWhitespace => go (SServiceMethod s) (pnext ts)
      | TAt =>
          onOk (parseAnnotations ts) (fun anns ts1 =>
          go (SServiceMethod (Service (sv_name s) (sv_methods s) (sv_anns s ++ anns)
                                      (sv_comment s))) ts1)
      | THash => go (SServiceMethod s) (continueUntilEOL ts)
      | TMinus => go (SServiceMethodDef s) ts
      | _ => emitTo (NService s) SDefault ts
      end
  | SServiceMethodDef s => stepServiceMethodDef s ts cm out
  end.

(** parser.go 94-111 run / 71-92 collect: the result of running the machine *)
Inductive parseResult :=
| Parsed (nodes : list node)
| ParseError (e : perror)
| ParseLoop.               (** the fuel ran out *)

Fixpoint runParser (fuel : nat) (c : pconf) : parseResult :=
  match fuel with
  | O => ParseLoop
  | S k => match step c with
           | Next c' => runParser k c'
           | Done out => Parsed out
           | Fail e => ParseError e
           | NoFuel => ParseLoop
           end
  end.

(** parser.go 51-65 newParser *)
Definition initConf (src : string) : pconf :=
  let (ts, cm) := tokenize src in PC SDefault ts cm [].

Definition parserFuel (ts : toks) : nat := 4 * length ts + 8.

Definition parseRidl (src : string) : parseResult :=
  let c := initConf src in runParser (parserFuel (p_toks c)) c.
