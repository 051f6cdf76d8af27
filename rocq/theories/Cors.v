(** Calls across origins: a page of one origin calls a server of another origin with a generated TypeScript client.

    Models the CORS middleware of the example servers: the options in /repo/_examples/hello-webrpc/server/main.go 26-36,
    /repo/_examples/webrpc-streaming/main.go 75-85, /repo/_examples/node-ts/server-go/main.go 29-36 and
    /repo/_examples/node-ts/server-hono/index.ts 79-86, package github.com/go-chi/cors v1.2.2 (cors.go New, Handler,
    handlePreflight, handleActualRequest, isMethodAllowed, areHeadersAllowed; utils.go parseHeaderList), hono/cors, and
    the browser (the fetch standard: CORS protocol).  The CORS of the node server is in NodeHttp.v.

    Simplifications: header values are valid; a Range header is never harmless; no preflight is remembered (the
    cache spares preflights, it answers nothing else); origin patterns with a * inside and AllowOriginFunc are not
    modelled (no example has them); OptionsPassthrough is off. *)
From Verif Require Import Base Json GoVal Ts TsBig JsNum TsCall Rpc.
From Verif Require Methods.

(** ** HTTP messages *)
Record msg := Msg { g_method : string; g_path : string; g_headers : list (string * string); g_body : string }.
Record answer := Answer { a_status : Z; a_headers : list (string * string); a_body : string }.
(** a server: its answer, and the messages that reached the RPC function behind its middleware *)
Definition webServer : Type := msg -> option answer * list msg.

(** the values of a header, combined *)
Definition headerGet (name : string) (hs : list (string * string)) : option string :=
  match map snd (filter (fun h => String.eqb (to_lower (fst h)) name) hs) with
  | [] => None
  | vs => Some (String.concat ", " vs)
  end.

(** ** The browser *)

(** forbidden request-header names: fetch drops them *)
Definition forbidden (n : string) : bool :=
  str_in n ["accept-charset"; "accept-encoding"; "access-control-request-headers"; "access-control-request-method";
            "access-control-request-private-network"; "connection"; "content-length"; "cookie"; "cookie2"; "date"; "dnt";
            "expect"; "host"; "keep-alive"; "origin"; "referer"; "set-cookie"; "te"; "trailer"; "transfer-encoding";
            "upgrade"; "via"] || has_prefix "proxy-" n || has_prefix "sec-" n.

(** the header list fetch makes of an object: one entry per name in lower case, the values of one name combined *)
Definition headerList (hs : list (string * string)) : list (string * string) :=
  map (fun n => (n, headerSent n hs))
    (filter (fun n => negb (forbidden n)) (nodup string_dec (map (fun h => to_lower (fst h)) hs))).

(** CORS-safelisted request-headers *)
Definition unsafeByte (c : ascii) : bool :=
  (N_of_byte c <? 32)%N && negb (N_of_byte c =? 9)%N || (N_of_byte c =? 127)%N || (N_of_byte c =? 34)%N ||
  existsb (Ascii.eqb c) (list_ascii_of_string "():<>?@[\]{}").
Definition languageByte (c : ascii) : bool :=
  is_alpha_byte c || is_digit_byte c || existsb (Ascii.eqb c) (list_ascii_of_string " *,-.;=").
Definition harmless (n v : string) : bool :=
  (String.length v <=? 128)%nat &&
  (if String.eqb n "accept" then negb (sexists unsafeByte v)
   else if str_in n ["accept-language"; "content-language"] then sforall languageByte v
   else if String.eqb n "content-type" then
     negb (sexists unsafeByte v) &&
     str_in (mediaType v) ["application/x-www-form-urlencoded"; "multipart/form-data"; "text/plain"]
   else false).

(** sorted names *)
Fixpoint insertName (n : string) (l : list string) : list string :=
  match l with
  | [] => [n]
  | x :: r => match String.compare n x with Gt => x :: insertName n r | _ => n :: l end
  end.
Definition sortNames (l : list string) : list string := fold_right insertName [] l.

(** CORS-unsafe request-header names *)
Definition unsafeNames (hl : list (string * string)) : list string :=
  let safe := filter (fun h => harmless (fst h) (snd h)) hl in
  let size := fold_right (fun h n => (String.length (snd h) + n)%nat) 0%nat safe in
  sortNames (map fst (filter (fun h => negb (harmless (fst h) (snd h)) || (1024 <? size)%nat) hl)).

(** extracting header list values: None is failure *)
Definition isTokenName (n : string) : bool := negb (String.eqb n EmptyString) && sforall Methods.tokenByte n.
Definition listValues (v : string) : option (list string) :=
  let items := filter (fun x => negb (String.eqb x EmptyString)) (map trimSpace (split_byte "," v)) in
  if forallb isTokenName items then Some items else None.
Definition extract (name : string) (a : answer) : option (list string) :=
  match headerGet name (a_headers a) with None => Some [] | Some v => listValues v end.

(** the CORS check *)
Definition corsCheck (origin : string) (include : bool) (a : answer) : bool :=
  match headerGet "access-control-allow-origin" (a_headers a) with
  | None => false
  | Some v =>
      if negb include && String.eqb v "*" then true
      else if negb (String.eqb v origin) then false
      else if negb include then true
      else match headerGet "access-control-allow-credentials" (a_headers a) with Some c => String.eqb c "true" | None => false end
  end.

(** the answer to a preflight allows the request *)
Definition preflightAllows (origin : string) (include : bool) (method : string) (names : list string) (a : answer) : bool :=
  corsCheck origin include a && (200 <=? a_status a)%Z && (a_status a <=? 299)%Z &&
  match extract "access-control-allow-methods" a, extract "access-control-allow-headers" a with
  | Some ms, Some ns =>
      (str_in method ms || str_in method ["GET"; "HEAD"; "POST"] || negb include && str_in "*" ms) &&
      forallb (fun n => str_in n (map to_lower ns) ||
                        negb include && str_in "*" ns && negb (String.eqb n "authorization")) names
  | _, _ => false
  end.

(** a request with mode cors to another origin: what the page gets (None: the promise rejects), and what reached the
    RPC function; [include] is the credentials mode "include" *)
Definition preflight (origin : string) (q : msg) (names : list string) : msg :=
  Msg "OPTIONS" (g_path q)
    ([("accept", "*/*"); ("access-control-request-method", g_method q)] ++
     match names with [] => [] | _ => [("access-control-request-headers", join "," names)] end ++ [("origin", origin)]) EmptyString.
Definition actual (origin : string) (q : msg) : msg :=
  Msg (g_method q) (g_path q) (headerList (g_headers q) ++ [("origin", origin)]) (g_body q).
Definition send (srv : webServer) (origin : string) (include : bool) (q : msg) : option answer * list msg :=
  match srv (actual origin q) with
  | (Some a, got) => (if corsCheck origin include a then Some a else None, got)
  | (None, got) => (None, got)
  end.
Definition crossFetch (srv : webServer) (origin : string) (include : bool) (q : msg) : option answer * list msg :=
  if negb (forallb (fun h => isTokenName (fst h)) (g_headers q)) then (None, [])
  else
    let names := unsafeNames (headerList (g_headers q)) in
    if str_in (g_method q) ["GET"; "HEAD"; "POST"] && match names with [] => true | _ => false end
    then send srv origin include q
    else
      let (p, got) := srv (preflight origin q names) in
      match p with
      | Some a =>
          if preflightAllows origin include (g_method q) names a
          then let (r, got') := send srv origin include q in (r, got ++ got')
          else (None, got)
      | None => (None, got)
      end.

(** what the page can read of the headers of the answer *)
Definition readable (include : bool) (name : string) (a : answer) : option string :=
  let exposed := match extract "access-control-expose-headers" a with Some l => map to_lower l | None => [] end in
  if str_in name ["cache-control"; "content-language"; "content-length"; "content-type"; "expires"; "last-modified"; "pragma"] ||
     str_in name exposed || negb include && str_in "*" exposed
  then headerGet name (a_headers a) else None.

(** ** github.com/go-chi/cors *)
Record corsOptions := CorsOptions {
  co_origins : list string; co_methods : list string; co_headers : list string; co_exposed : list string;
  co_credentials : bool; co_maxAge : Z }.

(** utils.go parseHeaderList: [h] is the name read so far, [upper] the case of the next letter *)
Definition keepByte (upper : bool) (b : ascii) : string :=
  if is_lower_byte b then String (if upper then upper_byte b else b) EmptyString
  else if is_upper_byte b then String (if upper then b else lower_byte b) EmptyString
  else if existsb (Ascii.eqb b) (list_ascii_of_string "-_.") || is_digit_byte b then String b EmptyString
  else EmptyString.
Fixpoint parseNames (s h : string) (upper : bool) : list string :=
  match s with
  | EmptyString => []
  | String b r =>
      let h' := (h ++ keepByte upper b)%string in
      if Ascii.eqb b " " || Ascii.eqb b "," || String.eqb r EmptyString then
        if String.eqb h' EmptyString then parseNames r EmptyString upper else h' :: parseNames r EmptyString true
      else parseNames r h' (Ascii.eqb b "-" || Ascii.eqb b "_")
  end.
Definition parseHeaderList (s : string) : list string := parseNames s EmptyString true.

(** cors.go New, isOriginAllowed, isMethodAllowed, areHeadersAllowed.  Simplification: the lists are not empty *)
Definition anyOrigin (o : corsOptions) : bool := str_in "*" (co_origins o).
Definition originAllowed (o : corsOptions) (origin : string) : bool :=
  anyOrigin o || str_in (to_lower origin) (map to_lower (co_origins o)).
Definition methodAllowed (o : corsOptions) (m : string) : bool :=
  String.eqb (to_upper m) "OPTIONS" || str_in (to_upper m) (map to_upper (co_methods o)).
Definition headersAllowed (o : corsOptions) (hs : list string) : bool :=
  str_in "*" (co_headers o) ||
  forallb (fun h => str_in (Methods.canonical h) (map Methods.canonical (co_headers o ++ ["Origin"]))) hs.

Definition requestHeader (name : string) (q : msg) : string :=
  match headerGet name (g_headers q) with Some v => v | None => EmptyString end.

(** cors.go handlePreflight *)
Definition preflightHeaders (o : corsOptions) (q : msg) : list (string * string) :=
  [("Vary", "Origin"); ("Vary", "Access-Control-Request-Method"); ("Vary", "Access-Control-Request-Headers")] ++
  let origin := requestHeader "origin" q in
  let method := requestHeader "access-control-request-method" q in
  let names := parseHeaderList (requestHeader "access-control-request-headers" q) in
  if String.eqb origin EmptyString then []
  else if negb (originAllowed o origin) then []
  else if negb (methodAllowed o method) then []
  else if negb (headersAllowed o names) then []
  else
    [("Access-Control-Allow-Origin", if anyOrigin o then "*" else origin); ("Access-Control-Allow-Methods", to_upper method)] ++
    match names with [] => [] | _ => [("Access-Control-Allow-Headers", join ", " names)] end ++
    (if co_credentials o then [("Access-Control-Allow-Credentials", "true")] else []) ++
    (if (0 <? co_maxAge o)%Z then [("Access-Control-Max-Age", zdec (co_maxAge o))] else []).

(** cors.go handleActualRequest *)
Definition actualHeaders (o : corsOptions) (q : msg) : list (string * string) :=
  [("Vary", "Origin")] ++
  let origin := requestHeader "origin" q in
  if String.eqb origin EmptyString then []
  else if negb (originAllowed o origin) then []
  else if negb (methodAllowed o (g_method q)) then []
  else
    [("Access-Control-Allow-Origin", if anyOrigin o then "*" else origin)] ++
    match co_exposed o with [] => [] | es => [("Access-Control-Expose-Headers", join ", " (map Methods.canonical es))] end ++
    (if co_credentials o then [("Access-Control-Allow-Credentials", "true")] else []).

(** cors.go Handler, OptionsPassthrough off; the headers the handler sets replace those of the middleware *)
Definition isPreflight (q : msg) : bool :=
  String.eqb (g_method q) "OPTIONS" && negb (String.eqb (requestHeader "access-control-request-method" q) EmptyString).
Definition replaceHeaders (new hs : list (string * string)) : list (string * string) :=
  filter (fun h => negb (str_in (to_lower (fst h)) (map (fun x => to_lower (fst x)) new))) hs ++ new.
Definition corsHandler (o : corsOptions) (next : msg -> option answer) : webServer := fun q =>
  if isPreflight q then (Some (Answer 200 (preflightHeaders o q) EmptyString), [])
  else (match next q with
        | Some a => Some (Answer (a_status a) (replaceHeaders (a_headers a) (actualHeaders o q)) (a_body a))
        | None => None
        end, [q]).

(** ** The servers *)

(** _examples/hello-webrpc/server/main.go 26-36 and _examples/webrpc-streaming/main.go 75-85, alike *)
Definition helloCors : corsOptions :=
  CorsOptions ["*"] ["POST"; "OPTIONS"] ["Accept"; "Authorization"; "Content-Type"; "X-CSRF-Token"; "Webrpc"] ["Link"; "Webrpc"] true 300.
(** _examples/node-ts/server-go/main.go 29-36 *)
Definition serverGoCors : corsOptions :=
  CorsOptions ["*"] ["GET"; "POST"; "PUT"; "DELETE"; "OPTIONS"] ["Accept"; "Authorization"; "Content-Type"] ["Link"] true 43200.

(** the generated Go server as a handler, with the headers it has set before it writes; [recovers] as for [connect] *)
Fixpoint headersOf (es : list event) (acc : list (string * string)) : list (string * string) :=
  match es with
  | [] => acc
  | WriteHeader c :: r => if informational c then headersOf r acc else acc
  | Write _ :: _ => acc
  | SetHeader k v :: r => headersOf r (replaceHeaders [(k, v)] acc)
  | CallImpl _ _ :: r => headersOf r acc
  end.
Definition toRequest (q : msg) : request :=
  Request (g_method q) (g_path q) (requestHeader "content-type" q) (Some (g_body q)).
Definition goHandler (recovers : bool) (hv : string) (s : service) (o : options) (impl : implementation) (q : msg) : option answer :=
  match serveHTTP hv s o impl (toRequest q) with
  | (es, e) =>
      match e, recovers with
      | Panicked _, false => None
      | _, _ => Some (Answer (p_status (responseOf es)) (headersOf es []) (p_body (responseOf es)))
      end
  end.

(** the network as the client sees it from a page of another origin: the request object of the client has these
    headers (client.gen.ts 158-161) *)
Definition pageRequest (hs : list (string * string)) (wv : string) (r : request) : msg :=
  Msg (q_method r) (q_path r) (createHeaders hs wv) (match q_body r with Some b => b | None => EmptyString end).
Definition pageNet (srv : webServer) (origin : string) (include : bool) (hs : list (string * string)) (wv : string)
    (r : request) : transport :=
  match fst (crossFetch srv origin include (pageRequest hs wv r)) with
  | Some a => Received (Response (a_status a) (a_body a))
  | None => NoResponse (EPlain 0 "TypeError: Failed to fetch")
  end.

(** ** hono/cors with the options of _examples/node-ts/server-hono/index.ts 79-86; the handler is behind it *)
Definition honoHeaders (q : msg) : list (string * string) :=
  let origin := requestHeader "origin" q in
  (if String.eqb origin EmptyString then [] else [("Access-Control-Allow-Origin", origin)]) ++
  [("Vary", "Origin"); ("Access-Control-Allow-Credentials", "true")].
Definition honoCors (next : msg -> option answer) : webServer := fun q =>
  if String.eqb (g_method q) "OPTIONS" then
    (Some (Answer 204 (honoHeaders q ++
       [("Access-Control-Max-Age", "86400"); ("Access-Control-Allow-Methods", "GET,POST,PUT,PATCH,DELETE,OPTIONS");
        ("Access-Control-Allow-Headers", "Content-Type,Authorization,Webrpc"); ("Vary", "Access-Control-Request-Headers")]) EmptyString), [])
  else (match next q with
        | Some a => Some (Answer (a_status a) (replaceHeaders (a_headers a) (honoHeaders q)) (a_body a))
        | None => None
        end, [q]).
