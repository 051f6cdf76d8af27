(** Model of schema/ridl/ridl.go: from the parse tree to the schema, and the
    resolution of imports. *)
From Verif Require Import Base Utf8 Lexer Tokenize Ast Parser Schema Graph.

(** ** Go standard library: package path and io/fs *)

(** path.Clean: elements of a path, "." and empty elements dropped, ".." resolved.
    [st] is the stack of kept elements, last first. *)
Fixpoint cleanElems (rooted : bool) (l : list string) (st : list string) : list string :=
  match l with
  | [] => rev st
  | e :: r =>
      if String.eqb e "" || String.eqb e "." then cleanElems rooted r st
      else if String.eqb e ".." then
        match st with
        | [] => if rooted then cleanElems rooted r [] else cleanElems rooted r [".."]
        | top :: st' => if String.eqb top ".." then cleanElems rooted r (".." :: st)
                        else cleanElems rooted r st'
        end
      else cleanElems rooted r (e :: st)
  end.
Definition pathClean (p : string) : string :=
  if String.eqb p "" then "."
  else
    let rooted := has_prefix "/" p in
    match cleanElems rooted (split_byte "/"%char p) [] with
    | [] => if rooted then "/" else "."
    | l => ((if rooted then "/" else "") ++ join "/" l)%string
    end.

(** path.Dir: everything before the last slash, cleaned *)
Definition pathDir (p : string) : string :=
  match rev (split_byte "/"%char p) with
  | [] => "."
  | _ :: r => pathClean (sconcat (map (fun e => e ++ "/")%string (rev r)))
  end.

(** path.Join of two elements *)
Definition pathJoin (a b : string) : string :=
  if String.eqb a "" && String.eqb b "" then ""
  else if String.eqb a "" then pathClean b
  else if String.eqb b "" then pathClean a
  else pathClean (a ++ "/" ++ b)%string.

(** fs.ValidPath (the UTF-8 check is omitted: paths come from decoded runes) *)
Definition validPath (p : string) : bool :=
  String.eqb p "." ||
  forallb (fun e => negb (str_in e [""; "."; ".."])) (split_byte "/"%char p).

(** strconv.ParseInt(s, 10, 32) with the error ignored, on a string of digits:
    the value, saturated at 2^31-1 *)
Definition digit_val (c : ascii) : Z := Z.of_N (N_of_byte c) - 48.
Fixpoint parse_digits (s : string) (acc : Z) : Z :=
  match s with
  | EmptyString => acc
  | String c r => parse_digits r (acc * 10 + digit_val c)%Z
  end.
Definition parseInt32 (s : string) : Z :=
  if String.eqb s "" then 0%Z
  else if sforall is_digit_byte s then Z.min (parse_digits s 0) 2147483647
  else 0%Z.

(** ** The schema of one file *)

(** ridl.go 136-163: webrpc, name, basepath, version *)
Definition setDef (s : schema) (d : defNode) : result schema :=
  let v := d_right d in
  if String.eqb (d_left d) "webrpc" then
    if String.eqb (sc_webrpc s) "" then
      Ok (Schema_ v (sc_name s) (sc_version s) (sc_basepath s) (sc_types s) (sc_errors s) (sc_services s))
    else Err "webrpc was previously declared"
  else if String.eqb (d_left d) "name" then
    if String.eqb (sc_name s) "" then
      Ok (Schema_ (sc_webrpc s) v (sc_version s) (sc_basepath s) (sc_types s) (sc_errors s) (sc_services s))
    else Err "name was previously declared"
  else if String.eqb (d_left d) "basepath" then
    if String.eqb (sc_basepath s) "" then
      Ok (Schema_ (sc_webrpc s) (sc_name s) (sc_version s) v (sc_types s) (sc_errors s) (sc_services s))
    else Err "basepath was previously declared"
  else if String.eqb (d_left d) "version" then
    if String.eqb (sc_version s) "" then
      Ok (Schema_ (sc_webrpc s) (sc_name s) v (sc_basepath s) (sc_types s) (sc_errors s) (sc_services s))
    else Err "version was previously declared"
  else Err "unknown definition".

Definition emptySchema : schema := Schema_ "" "" "" "" [] [] [].

(** ridl.go 417-427 isImportAllowed *)
Definition isImportAllowed (name : string) (whitelist : list string) : bool :=
  match whitelist with
  | [] => true
  | _ => str_in name whitelist
  end.

(** slices.Contains on pointers *)
Definition id_in (i : ident) (l : list ident) : bool := existsb (ident_eqb i) l.

(** ridl.go 184-200: merge an imported schema *)
Fixpoint mergeTypes (acc : list type) (members : list string) (l : list type) : list type :=
  match l with
  | [] => acc
  | t :: r =>
      if negb (id_in (t_id t) (map t_id acc)) && isImportAllowed (t_name t) members
      then mergeTypes (acc ++ [t]) members r
      else mergeTypes acc members r
  end.
Fixpoint mergeErrors (acc : list error) (members : list string) (l : list error) : list error :=
  match l with
  | [] => acc
  | t :: r =>
      if negb (id_in (x_id t) (map x_id acc)) && isImportAllowed (x_name t) members
      then mergeErrors (acc ++ [t]) members r
      else mergeErrors acc members r
  end.
Definition mergeServices (acc : list service) (members : list string) (l : list service)
  : list service :=
  acc ++ filter (fun s => isImportAllowed (v_name s) members) l.

Definition mergeImport (s imported : schema) (members : list string) : schema :=
  Schema_ (sc_webrpc s) (sc_name s) (sc_version s) (sc_basepath s)
    (mergeTypes (sc_types s) members (sc_types imported))
    (mergeErrors (sc_errors s) members (sc_errors imported))
    (mergeServices (sc_services s) members (sc_services imported)).

(** ridl.go 479-485 parseComment *)
Definition parseComment (c : string) : list string :=
  if String.eqb c "" then [] else split_byte "010"%char c.

(** replace the first element that satisfies p *)
Fixpoint updateFirst {A} (p : A -> bool) (f : A -> A) (l : list A) : list A :=
  match l with
  | [] => []
  | x :: r => if p x then f x :: r else x :: updateFirst p f r
  end.

Definition sameName (name : string) (t : type) : bool :=
  String.eqb (to_lower (t_name t)) (to_lower name).

(** [schema.TypeFieldMeta{key: val}] *)
Definition metaOf (kv : string * string) : metaMap := [(fst kv, Some (snd kv))].

(** ridl.go 203-228: first pass over aliases, enums and structs *)
Definition pass1Types (file : string) (nodes : list node) : list (ident -> type) :=
  map (fun a i => Type_ i "alias" (al_name a) None [] [] (parseComment (al_comment a)))
      (typeAliases nodes) ++
  map (fun e i => Type_ i "enum" (e_name e) None [] [] []) (enums nodes) ++
  map (fun s i => Type_ i "struct" (s_name s) None [] [] (parseComment (s_comment s)))
      (structs nodes).

Fixpoint number {A} (file : string) (n : nat) (l : list (ident -> A)) : list A :=
  match l with
  | [] => []
  | f :: r => f (file, n) :: number file (S n) r
  end.

(** ridl.go 240-262 type alias resolution *)
Definition resolveAlias (ts : list type) (a : aliasNode) : result (list type) :=
  match getTypeByName ts (al_name a) with
  | None => Err "unexpected error, could not find definition"
  | Some _ =>
      match parseVarTypeExpr ts (al_type a) with
      | Ok v => Ok (updateFirst (sameName (al_name a))
                      (fun t => Type_ (t_id t) (t_kind t) (t_name t) (Some v) (t_fields t)
                                  (t_meta t ++ map metaOf (al_meta a)) (t_comments t)) ts)
      | Err _ => Err "type alias: unknown type"
      | Panic => Panic
      | OutOfFuel => OutOfFuel
      end
  end.

(** ridl.go 280-301: the members of an enum; [i] is the index *)
Fixpoint enumFields (isString : bool) (i : nat) (ds : list defNode) : list field :=
  match ds with
  | [] => []
  | d :: r =>
      let v := if String.eqb (d_right d) "" then
                 if isString then d_left d else itoa i
               else d_right d in
      Field (d_left d) None false v [] (parseComment (d_comment d))
        :: enumFields isString (S i) r
  end.

(** ridl.go 264-302 *)
Definition resolveEnum (ts : list type) (e : enumNode) : result (list type) :=
  match getTypeByName ts (e_name e) with
  | None => Err "unexpected error, could not find definition"
  | Some _ =>
      match parseVarTypeExpr ts (e_type e) with
      | Ok v => Ok (updateFirst (sameName (e_name e))
                      (fun t => Type_ (t_id t) (t_kind t) (t_name t) (Some v)
                                  (t_fields t ++
                                   enumFields (String.eqb (vt_expr v) "string") 0 (e_values e))
                                  (t_meta t) (t_comments t)) ts)
      | Err _ => Err "enum: unknown type"
      | Panic => Panic
      | OutOfFuel => OutOfFuel
      end
  end.

(** ridl.go 304-318 *)
Definition buildError (en : errorNode) (i : ident) : error :=
  Error_ i (parseInt32 (er_code en)) (er_name en) (er_message en)
    (match er_status en with Some s => parseInt32 s | None => 400%Z end).

(** ridl.go 329-353 *)
Definition buildField (ts : list type) (d : defNode) : result field :=
  match parseVarTypeExpr ts (d_right d) with
  | Ok v => Ok (Field (d_left d) (Some v) (d_optional d) "" (map metaOf (d_meta d))
                      (parseComment (d_comment d)))
  | Err _ => Err "struct: unknown type of field"
  | Panic => Panic
  | OutOfFuel => OutOfFuel
  end.

(** ridl.go 320-354 *)
Definition resolveStruct (ts : list type) (s : structNode) : result (list type) :=
  match getTypeByName ts (s_name s) with
  | None => Err "unexpected error, could not find definition"
  | Some _ =>
      do fs <- mapM (buildField ts) (s_fields s);
      Ok (updateFirst (sameName (s_name s))
            (fun t => Type_ (t_id t) (t_kind t) (t_name t) (t_type t) (t_fields t ++ fs)
                        (t_meta t) (t_comments t)) ts)
  end.

(** ridl.go 504-512 toLowerFirstChar (ASCII first letter) *)
Definition toLowerFirstChar (s : string) : string :=
  match s with EmptyString => EmptyString | String c r => String (lower_byte c) r end.

(** ridl.go 429-477 buildArgumentsList *)
Definition buildArg (ts : list type) (a : argNode) : result arg :=
  do v <- parseVarTypeExpr ts (a_type a);
  Ok (Arg_ (a_name a) (Some v) (a_optional a)).
Definition buildArgumentsList (ts : list type) (args : list argNode)
  : result (list arg * bool) :=
  match args with
  | [Arg _ _ _ (Some sname)] =>
      match getTypeByName ts sname with
      | None => Err "unknown type for succinct definition"
      | Some t =>
          if negb (String.eqb (t_kind t) "struct") then
            Err "expecting struct type for succinct definition"
          else
            do v <- parseVarTypeExpr ts (t_name t);
            Ok ([Arg_ (toLowerFirstChar (t_name t)) (Some v) false], true)
      end
  | _ => do l <- mapM (buildArg ts) args; Ok (l, false)
  end.

(** ridl.go 487-502 buildAnnotations: a map, later entries override *)
Fixpoint putAnn (m : annotations) (k : string) (v : string * string) : annotations :=
  match m with
  | [] => [(k, v)]
  | (k', v') :: r => if String.eqb k k' then (k, v) :: r else (k', v') :: putAnn r k v
  end.
Definition buildAnnotations (m : methodNode) : annotations :=
  fold_left (fun acc a =>
    putAnn acc (an_type a) (an_type a, match an_value a with Some v => v | None => "" end))
    (m_annotations m) [].

(** ridl.go 360-397 *)
Definition buildMethod (ts : list type) (m : methodNode) : result method :=
  do i <- buildArgumentsList ts (m_inputs m);
  do o <- buildArgumentsList ts (m_outputs m);
  let (ins, si) := (i : list arg * bool) in
  let (outs, so) := (o : list arg * bool) in
  if (si || so) && negb (si && so) then Err "method definition must be in succinct form"
  else Ok (Method_ (m_name m) (buildAnnotations m) (parseComment (m_comment m)) (si && so)
                   (m_in_stream m) (m_out_stream m) ins outs (m_errors m)).

Definition sameService (name : string) (s : service) : bool :=
  String.eqb (to_lower (v_name s)) (to_lower name).

(** ridl.go 357-401 *)
Definition resolveService (ts : list type) (ss : list service) (sn : serviceNode)
  : result (list service) :=
  do ms <- mapM (buildMethod ts) (sv_methods sn);
  match getServiceByName ss (sv_name sn) with
  | None => Panic   (* unreachable: the service was pushed in the first pass *)
  | Some _ => Ok (updateFirst (sameService (sv_name sn))
                    (fun s => Service_ (v_id s) (v_name s) ms (v_comments s)) ss)
  end.

(** ridl.go 203-403: everything after the imports *)
Definition buildLocal (file : string) (nodes : list node) (s : schema) : result schema :=
  let ts0 := sc_types s ++ number file 0 (pass1Types file nodes) in
  let ss0 := sc_services s ++
             number file 0 (map (fun sn i => Service_ i (sv_name sn) [] (parseComment (sv_comment sn)))
                                (services_of nodes)) in
  do ts1 <- foldM resolveAlias (typeAliases nodes) ts0;
  do ts2 <- foldM resolveEnum (enums nodes) ts1;
  let es := sc_errors s ++ number file 0 (map buildError (errors_of nodes)) in
  do ts3 <- foldM resolveStruct (structs nodes) ts2;
  do ss <- foldM (resolveService ts3) (services_of nodes) ss0;
  Ok (Schema_ (sc_webrpc s) (sc_name s) (sc_version s) (sc_basepath s) ts3 es ss).

(** ** Loading a file with its imports *)

(** the errors of a load; [file] is the file whose processing failed.  It is part of the Go
    messages except for [ESchema] (ridl.go 112, 117, 64, parser.go 100-108). *)
Inductive lerror :=
| EInvalidPath (file : string)                 (** ridl.go 112 *)
| ENoFile (file : string)                      (** ridl.go 117 *)
| ESyntax (file : string) (e : perror)         (** ridl.go 125 *)
| ECircular (imported file : string)           (** ridl.go 64 *)
| ESchema (file : string) (msg : string).      (** ridl.go 136-403, Validate *)

(** outcome of a loader call; [stack] is the stack of importError (None while
    the error is not wrapped) *)
Inductive lres (A : Type) : Type :=
| LOk (a : A)
| LErr (e : lerror) (stack : option (list string))
| LPanic
| LFuel.
Arguments LOk {A} _.
Arguments LErr {A} _ _.
Arguments LPanic {A}.
Arguments LFuel {A}.

(** ridl.go 24-32: the parts of a Parser shared by all parsers of one load.  [l_reads] is not in
    the code: it records the calls of fs.ReadFile and newParser (ridl.go 115-120), oldest first. *)
Record lstate := LS { l_graph : graph; l_cache : list (string * schema); l_reads : list string }.

(** a computation that updates the shared state, also when it fails *)
Definition M (A : Type) := lstate -> lstate * lres A.
Definition ret {A} (a : A) : M A := fun st => (st, LOk a).
Definition lbind {A B} (x : M A) (f : A -> M B) : M B := fun st =>
  match x st with
  | (st', LOk a) => f a st'
  | (st', LErr e k) => (st', LErr e k)
  | (st', LPanic) => (st', LPanic)
  | (st', LFuel) => (st', LFuel)
  end.
Definition lift {A} (file : string) (r : result A) : M A := fun st =>
  (st, match r with
       | Ok a => LOk a
       | Err m => LErr (ESchema file m) None
       | Panic => LPanic
       | OutOfFuel => LFuel
       end).

(** ridl.go 74-86 newImportError; [chain] is the path of the failing parser
    followed by those of its ancestors.  (The root directory that line 80 puts
    in front of every path is left out.) *)
Definition newImportError {A} (chain : list string) (x : M A) : M A := fun st =>
  match x st with
  | (st', LErr e None) => (st', LErr e (Some chain))
  | y => y
  end.

(** ridl.go 59-72 importParser: the graph update and the cycle check *)
Definition importParser (p filename : string) : M unit := fun st =>
  let g := addEdge (addNode (l_graph st) filename) p filename in
  let st' := LS g (l_cache st) (l_reads st) in
  match isCircular g with
  | None => (st', LFuel)
  | Some true => (st', LErr (ECircular filename p) None)
  | Some false => (st', LOk tt)
  end.

(** ridl.go 168 *)
Definition importTarget (p : string) (i : importNode) : string := pathJoin (pathDir p) (i_path i).

(** ridl.go 110-127: reading and parsing one file of the file system [fs] *)
Definition readFile (fs : list (string * string)) (p : string) : M (list node) := fun st =>
  if negb (validPath p) then (st, LErr (EInvalidPath p) None)
  else
    let st' := LS (l_graph st) (l_cache st) (l_reads st ++ [p]) in
    match assoc p fs with
    | None => (st', LErr (ENoFile p) None)
    | Some src =>
        match parseRidl src with
        | Parsed nodes => (st', LOk nodes)
        | ParseError e => (st', LErr (ESyntax p e) None)
        | ParseLoop => (st', LFuel)
        end
    end.

(** ridl.go 170-178: the schema of an imported file, from the cache or by the parser [ld].
    (Line 175 also stores nil in the cache when parsing fails; the load then fails too.) *)
Definition importOne (ld : string -> list string -> M schema) (p : string) (parents : list string)
  (i : importNode) : M schema := fun st =>
  let ip := importTarget p i in
  match assoc ip (l_cache st) with
  | Some imp => (st, LOk imp)
  | None =>
      lbind (importParser p ip) (fun _ =>
      lbind (newImportError (ip :: p :: parents) (ld ip (p :: parents))) (fun imp =>
      fun st' => (LS (l_graph st') ((ip, imp) :: l_cache st') (l_reads st'), LOk imp))) st
  end.

(** ridl.go 167-201 *)
Fixpoint importsLoop (ld : string -> list string -> M schema) (p : string) (parents : list string)
  (l : list importNode) (s : schema) : M schema :=
  match l with
  | [] => ret s
  | i :: r =>
      lbind (importOne ld p parents i) (fun imp =>
      importsLoop ld p parents r (mergeImport s imp (i_members i)))
  end.

(** ridl.go 44-57 Parse and 110-404 parse of the file [p].  [parents] are the
    paths of the importing parsers, innermost first.  Recursion on fuel.
    [uriOk]: see Schema.checkBasePath. *)
Fixpoint load (fs : list (string * string)) (uriOk : string -> bool) (n : nat) (p : string)
  (parents : list string) {struct n} : M schema :=
  match n with
  | O => fun st => (st, LFuel)
  | S n =>
      lbind (readFile fs p) (fun nodes =>
      lbind (lift p (foldM setDef (definitions nodes) emptySchema)) (fun s0 =>
      lbind (importsLoop (load fs uriOk n) p parents (imports nodes) s0) (fun s1 =>
      lbind (lift p (buildLocal p nodes s1)) (fun s2 =>
      lift p (validate uriOk s2)))))
  end.

(** ridl.go 34-57 NewParser(fsys, root, path).Parse() *)
Definition startState (p : string) : lstate := LS (newGraph [p]) [] [].
Definition loadRun (fs : list (string * string)) (uriOk : string -> bool) (p : string)
  : lstate * lres schema :=
  load fs uriOk (S (S (length fs))) p [] (startState p).
Definition loadFile (fs : list (string * string)) (uriOk : string -> bool) (p : string) : lres schema :=
  snd (loadRun fs uriOk p).
