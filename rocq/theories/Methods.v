(** Method descriptors of a generated Go server, the headers of a generated Go client, and the
    server of _examples/golang-basics. *)
From Verif Require Import Base Utf8 Json GoVal Rpc.
From Verif Require Schema.

(** ** Descriptors *)

(** example.gen.go 797-801 (type method) and 803-807 (its accessors) *)
Record methodInfo := MethodInfo { mi_name : string; mi_service : string; mi_annotations : list (string * string) }.
Definition annotation (m : methodInfo) (key : string) : string :=
  match assoc key (mi_annotations m) with Some v => v | None => EmptyString end.
Definition hasAnnotation (m : methodInfo) (key : string) : bool :=
  match assoc key (mi_annotations m) with Some _ => true | None => false end.

(** the map literal [methods] a schema gives, example.gen.go 809-850: for each method of each
    service its path, name, service and annotations with their values (the annotation's type is its key).
    Simplification: a list in the order of the schema; Go refuses to compile a map literal with two
    equal keys, which [C58_paths_are_distinct] excludes. *)
Definition infoOf (v : Schema.service) (m : Schema.method) : methodInfo :=
  MethodInfo (Schema.me_name m) (Schema.v_name v) (map (fun a => (fst a, snd (snd a))) (Schema.me_annotations m)).
Definition methodsTable (s : Schema.schema) : list (string * methodInfo) :=
  flat_map (fun v => map (fun m => ((Schema.sc_basepath s ++ Schema.v_name v ++ "/" ++ Schema.me_name m)%string, infoOf v m))
                         (Schema.v_methods v)) (Schema.sc_services s).

(** example.gen.go 852-860 MethodCtx; [path] is the path of the request in the context, if there is one *)
Definition methodCtx (table : list (string * methodInfo)) (path : option string) : option methodInfo :=
  match path with None => None | Some p => assoc p table end.

(** example.gen.go 868-881 WebrpcMethods *)
Definition webrpcMethods (table : list (string * methodInfo)) (services : list string) : list (string * methodInfo) :=
  match services with
  | [] => table
  | _ => filter (fun e => existsb (String.eqb (mi_service (snd e))) services) table
  end.

(** example.gen.go 896-911 Method and methodsFor; the handler is named by [h].  Go's order is that of
    a map, the model's that of the table. *)
Record bound (H : Type) := Bound { b_method : methodInfo; b_path : string; b_handler : H }.
Arguments Bound {H}. Arguments b_method {H}. Arguments b_path {H}. Arguments b_handler {H}.
Definition methodsFor {H} (table : list (string * methodInfo)) (service : string) (h : H) : list (bound H) :=
  map (fun e => Bound (snd e) (fst e) h) (webrpcMethods table [service]).

(** example.gen.go 726-741 Server and Methods: one entry per service, [None] for a nil field *)
Definition serverMethods {H} (table : list (string * methodInfo)) (fields : list (string * option H)) : list (bound H) :=
  flat_map (fun f => match snd f with Some h => methodsFor table (fst f) h | None => [] end) fields.

(** ** The OnRequest hook of the example *)

(** main.go 44-60; the hook sees the path of the request.  The texts of fmt.Errorf are unwrapped errors. *)
Definition deprecatedHook (table : list (string * methodInfo)) (path : string) : option goError + string :=
  match methodCtx table (Some path) with
  | None => inl (Some (EPlain 0 ("could not find method context for request method: " ++ path)))
  | Some m =>
      match assoc "deprecated" (mi_annotations m) with
      | Some new => inl (Some (EPlain 0 ("endpoint " ++ path ++ " has been deprecated in favor of endpoint " ++ new)))
      | None => inl None
      end
  end.

(** Rpc.v gives the hook the name of the method whose route is the path of the request
    (example.gen.go 468-490: the switch compares r.URL.Path with the routes) *)
Definition onPath (s : service) (f : string -> option goError + string) : string -> option goError + string :=
  fun name => f (sv_prefix s ++ name)%string.

(** ** The server of the example *)

(** net/url: the path of a request target is its decoded form; an escape that is not one makes
    net/http answer 400 without calling a handler *)
Definition hexDigit (c : ascii) : option N :=
  let n := N_of_ascii c in
  if ((48 <=? n) && (n <=? 57))%N then Some (n - 48)%N
  else if ((97 <=? n) && (n <=? 102))%N then Some (n - 87)%N
  else if ((65 <=? n) && (n <=? 70))%N then Some (n - 55)%N
  else None.
Fixpoint unescape (s : string) : option string :=
  match s with
  | EmptyString => Some EmptyString
  | String "%" (String a (String b r)) =>
      match hexDigit a, hexDigit b, unescape r with
      | Some x, Some y, Some t => Some (String (ascii_of_N (16 * x + y)) t)
      | _, _, _ => None
      end
  | String "%" _ => None
  | String c r => match unescape r with Some t => Some (String c t) | None => None end
  end.

(** main.go 28-30, 62-63: the routes of chi.  "/" for GET, then the longer of the two catch-all
    patterns that match.  chi matches the raw target if net/url keeps it and the path otherwise. *)
Inductive destination : Type := Root | AdminServer | ExampleServer | NowhereFound.
Definition route (method routePath : string) : destination :=
  if String.eqb routePath "/" && String.eqb method "GET" then Root
  else if has_prefix "/admin/" routePath then AdminServer
  else if has_prefix "/" routePath then ExampleServer
  else NowhereFound.

(** admin.gen.go 289, 404-412; example.gen.go 300, 468-490.  The payload types do not matter here:
    [env], [adminMethods] and [exampleMethods] are arbitrary with these names. *)
Definition adminNames : list string := ["Auth"; "Status"; "Version"].
Definition exampleNames : list string :=
  ["Ping"; "Status"; "Version"; "GetUser"; "GetUserV2"; "FindUser"; "GetIntents"; "CountIntents"].

(** the table of example.gen.go 809-850, in its order *)
Definition exampleTable : list (string * methodInfo) :=
  [ ("/v1/Example/Ping", MethodInfo "Ping" "Example" [("internal", "")]);
    ("/v1/Example/Status", MethodInfo "Status" "Example" [("internal", "")]);
    ("/v1/Example/Version", MethodInfo "Version" "Example" [("internal", "")]);
    ("/v1/Example/GetUser", MethodInfo "GetUser" "Example" [("deprecated", "Use GetUserV2 instead."); ("internal", "")]);
    ("/v1/Example/GetUserV2", MethodInfo "GetUserV2" "Example" [("auth", "X-Access-Key,S2S,Cookies"); ("public", "")]);
    ("/v1/Example/FindUser", MethodInfo "FindUser" "Example" [("public", "")]);
    ("/v1/Example/GetIntents", MethodInfo "GetIntents" "Example" [("public", "")]);
    ("/v1/Example/CountIntents", MethodInfo "CountIntents" "Example" [("public", "")]) ].
(** admin.gen.go 590-606 *)
Definition adminTable : list (string * methodInfo) :=
  [ ("/v1/Admin/Auth", MethodInfo "Auth" "Admin" [("public", "")]);
    ("/v1/Admin/Status", MethodInfo "Status" "Admin" [("internal", "")]);
    ("/v1/Admin/Version", MethodInfo "Version" "Admin" [("internal", "")]) ].
(** internal.gen.go 777-803 *)
Definition internalTable : list (string * methodInfo) :=
  [ ("/v1/Example/Ping", MethodInfo "Ping" "Example" [("internal", "")]);
    ("/v1/Example/Status", MethodInfo "Status" "Example" [("internal", "")]);
    ("/v1/Example/Version", MethodInfo "Version" "Example" [("internal", "")]);
    ("/v1/Admin/Status", MethodInfo "Status" "Admin" [("internal", "")]);
    ("/v1/Admin/Version", MethodInfo "Version" "Admin" [("internal", "")]) ].

(** main.go 22-66: the run of the server for a request with target [raw] (decoded into the path of [r]);
    [routed] is what chi matches.  Simplifications: middleware (RequestID, Logger) has no effect on the
    answer; the OnError hook (33-42) only prints. *)
Definition exampleApp (hv : string) (example admin : service) (impl adminImpl : implementation)
    (routed : string) (r : request) : run :=
  match route (q_method r) routed with
  | Root => ([Write "."], Returned)
  | AdminServer => serveHTTP hv admin (Options None None) adminImpl r
  | ExampleServer => serveHTTP hv example (Options (Some (onPath example (deprecatedHook exampleTable))) None) impl r
  | NowhereFound => ([SetHeader "Content-Type" "text/plain; charset=utf-8"; WriteHeader 404; Write "404 page not found"], Returned)
  end.

(** ** Headers of the client *)

(** http.Header *)
Definition headers := list (string * list string).

(** net/textproto: the canonical form of a key is the key if some byte is not a token byte; otherwise
    the first letter and each letter after a hyphen in upper case, the others in lower case *)
Definition tokenByte (c : ascii) : bool :=
  is_alpha_byte c || is_digit_byte c ||
  existsb (Ascii.eqb c) (list_ascii_of_string "!#$%&'*+-.^_`|~").
Fixpoint capitals (first : bool) (s : string) : string :=
  match s with
  | EmptyString => EmptyString
  | String c r => String (if first then upper_byte c else lower_byte c) (capitals (Ascii.eqb c "-") r)
  end.
Definition canonical (k : string) : string := if sforall tokenByte k then capitals true k else k.

(** http.Header Set and Add *)
Definition valuesOf (h : headers) (k : string) : list string := match assoc k h with Some vs => vs | None => [] end.
(** http.Header Values *)
Definition headerValues (h : headers) (k : string) : list string := valuesOf h (canonical k).
Fixpoint putKey (k : string) (vs : list string) (h : headers) : headers :=
  match h with
  | [] => [(k, vs)]
  | (k', vs') :: r => if String.eqb k k' then (k, vs) :: r else (k', vs') :: putKey k vs r
  end.
Definition headerSet (h : headers) (k v : string) : headers := putKey (canonical k) [v] h.
Definition headerAdd (h : headers) (k v : string) : headers := putKey (canonical k) (valuesOf h (canonical k) ++ [v]) h.

(** example.gen.go 1003-1022 WithHTTPRequestHeaders: the headers stored in the context, or the error.
    Simplification: values are immutable here, so the copy is the value itself. *)
Definition withHTTPRequestHeaders (h : headers) : string + headers :=
  match assoc "Accept" h with
  | Some _ => inl "provided header cannot set Accept"
  | None => match assoc "Content-Type" h with
            | Some _ => inl "provided header cannot set Content-Type"
            | None => inr h
            end
  end.

(** example.gen.go 936-952 newRequest: the headers of the request; [ctx] are the headers in the context.
    Simplification: Go ranges over the keys in some order; the list is in that order. *)
Definition requestHeaders (headerValue : string) (ctx : option headers) : headers :=
  let own := headerSet (headerSet (headerSet [] "Accept" "application/json") "Content-Type" "application/json") "Webrpc" headerValue in
  match ctx with
  | None => own
  | Some hs => fold_left (fun acc kv => fold_left (fun a v => headerAdd a (fst kv) v) (snd kv) acc) hs own
  end.
