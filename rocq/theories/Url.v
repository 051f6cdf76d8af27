(** The URLs of generated clients and the path a Go server sees.

    Models serviceURL and the method URLs of generated Go clients (/repo/_examples/webrpc-streaming/proto/chat.gen.go
    155-165, 604-616, alike in golang-basics, golang-imports and tests/client), urlBase of older ones
    (/repo/_examples/node-ts/server-go/example.gen.go 188-195, 490-504), the constructor and url() of generated
    TypeScript clients (/repo/_examples/node-ts/webapp/client.gen.ts 105-113), and what they use of Go's net/url
    and net/http and of the URL standard of browsers.

    Simplifications: addresses with user names ("@") and IPv6 literals ("[") are treated as unparsable, and hosts
    as opaque texts; a browser's page is on an http or https origin; TypeScript texts are their UTF-8 bytes. *)
From Verif Require Import Base Uri Ridl.

(** ** Go's net/url *)

(** the bytes a path may contain without being escaped (shouldEscape, mode encodePath) *)
Definition unreserved (c : ascii) : bool :=
  is_alpha_byte c || is_digit_byte c || contains_byte c "-_.~".
Definition plainInPath (c : ascii) : bool := unreserved c || contains_byte c "$&+,/:;=@".
(** validEncoded, mode encodePath: what is left alone if the caller wrote it *)
Definition validEncoded (s : string) : bool :=
  sforall (fun c => plainInPath c || contains_byte c "!'()*[]%") s.

Definition hexDigit (n : N) : ascii := if (n <? 10)%N then byte_of_N (48 + n) else byte_of_N (55 + n).
Definition hexVal (c : ascii) : N :=
  let n := N_of_byte c in
  if is_digit_byte c then (n - 48)%N else if (n <? 97)%N then (n - 55)%N else (n - 87)%N.
Definition pct (c : ascii) : string :=
  let n := N_of_byte c in String "%" (String (hexDigit (n / 16)) (String (hexDigit (n mod 16)) "")).

Fixpoint escapeWith (plain : ascii -> bool) (s : string) : string :=
  match s with
  | EmptyString => EmptyString
  | String c r => if plain c then String c (escapeWith plain r) else (pct c ++ escapeWith plain r)%string
  end.
Definition escapePath : string -> string := escapeWith plainInPath.

(** unescape, modes encodePath and encodeFragment *)
Fixpoint unescape (s : string) : option string :=
  match s with
  | EmptyString => Some EmptyString
  | String c r =>
      if Ascii.eqb c "%" then
        match r with
        | String a (String b r') =>
            if is_hex a && is_hex b then option_map (String (byte_of_N (16 * hexVal a + hexVal b))) (unescape r') else None
        | _ => None
        end
      else option_map (String c) (unescape r)
  end.

Record url : Type := Url {
  u_scheme : string;
  u_opaque : string;
  u_host : string;
  u_path : string;          (** decoded *)
  u_rawPath : string;       (** as written, if that is not how Go would write it *)
  u_omitHost : bool;
  u_forceQuery : bool;      (** a "?" with nothing behind *)
  u_rawQuery : string;
  u_fragment : string
}.

(** strings.Cut *)
Definition cutByte (c : ascii) (s : string) : string * option string :=
  match index_byte c s with
  | None => (s, None)
  | Some n => (take n s, Some (drop (S n) s))
  end.

(** getScheme: [None] is the error "missing protocol scheme" *)
Fixpoint schemeGo (first : bool) (acc s : string) : option (option (string * string)) :=
  match s with
  | EmptyString => Some None
  | String c r =>
      if is_alpha_byte c then schemeGo false (acc ++ String c "") r
      else if is_digit_byte c || contains_byte c "+-." then (if first then Some None else schemeGo false (acc ++ String c "") r)
      else if Ascii.eqb c ":" then (if first then None else Some (Some (acc, r)))
      else Some None
  end.
Definition getScheme (s : string) : option (string * string) :=
  option_map (fun o => match o with Some p => p | None => ("", s) end) (schemeGo true "" s).

(** validOptionalPort, of what follows the last colon *)
Definition portOk (host : string) : bool :=
  match rev (split_byte ":" host) with
  | port :: _ :: _ => sforall is_digit_byte port
  | _ => true
  end.
(** parseAuthority and parseHost, without user and brackets: a byte below 128 must be one that a host may have *)
Definition hostByteOk (c : ascii) : bool :=
  (128 <=? N_of_byte c)%N || unreserved c || contains_byte c "!$&'()*+,;=:<>""".
Definition parseHost (a : string) : option string :=
  if sforall hostByteOk a && portOk a then Some a else None.

(** setPath *)
Definition setPath (u : url) (p : string) : option url :=
  match unescape p with
  | None => None
  | Some d => Some (Url (u_scheme u) (u_opaque u) (u_host u) d (if String.eqb p (escapePath d) then "" else p)
                        (u_omitHost u) (u_forceQuery u) (u_rawQuery u) (u_fragment u))
  end.

Definition count_byte (c : ascii) (s : string) : nat := length (split_byte c s) - 1.

(** the part of parse after the query was cut off *)
Definition parseRest (viaRequest : bool) (scheme rest : string) (force : bool) (query : string) : option url :=
  if negb (has_prefix "/" rest) && negb (String.eqb scheme "") then Some (Url scheme rest "" "" "" false force query "")
  else if negb (has_prefix "/" rest) && viaRequest then None
  else if negb (has_prefix "/" rest) && contains_byte ":" (hd "" (split_byte "/" rest)) then None
  else if (negb (String.eqb scheme "") || negb viaRequest && negb (has_prefix "///" rest)) && has_prefix "//" rest then
    let a := drop 2 rest in
    match parseHost (fst (cutByte "/" a)) with
    | None => None
    | Some h => setPath (Url scheme "" h "" "" false force query "")
                        (match snd (cutByte "/" a) with Some r => String "/" r | None => "" end)
    end
  else setPath (Url scheme "" "" "" "" (negb (String.eqb scheme "") && has_prefix "/" rest) force query "") rest.

(** parse; url.ParseRequestURI is [parse true] *)
Definition parse (viaRequest : bool) (s : string) : option url :=
  if sexists is_ctl s then None
  else if String.eqb s "" && viaRequest then None
  else if String.eqb s "*" then Some (Url "" "" "" "*" "" false false "" "")
  else
    match getScheme s with
    | None => None
    | Some (sch, rest) =>
        let scheme := to_lower sch in
        if has_suffix "?" rest && (count_byte "?" rest =? 1)
        then parseRest viaRequest scheme (take (String.length rest - 1) rest) true ""
        else parseRest viaRequest scheme (fst (cutByte "?" rest)) false (match snd (cutByte "?" rest) with Some q => q | None => "" end)
    end.

(** url.Parse *)
Definition urlParse (s : string) : option url :=
  match parse false (fst (cutByte "#" s)) with
  | None => None
  | Some u =>
      match snd (cutByte "#" s) with
      | None => Some u
      | Some f =>
          match unescape f with
          | None => None
          | Some d => Some (Url (u_scheme u) (u_opaque u) (u_host u) (u_path u) (u_rawPath u) (u_omitHost u) (u_forceQuery u) (u_rawQuery u) d)
          end
      end
  end.

(** EscapedPath *)
Definition escapedPath (u : url) : string :=
  if negb (String.eqb (u_rawPath u) "") && validEncoded (u_rawPath u) &&
     match unescape (u_rawPath u) with Some p => String.eqb p (u_path u) | None => false end
  then u_rawPath u
  else if String.eqb (u_path u) "*" then "*"
  else escapePath (u_path u).

Definition queryPart (u : url) : string :=
  if u_forceQuery u || negb (String.eqb (u_rawQuery u) "") then ("?" ++ u_rawQuery u)%string else "".

(** String, for a URL with a host and no user: the only one it is called with here is that of 615 and of 503;
    the fragment is left out if it is empty, and otherwise escaped *)
Definition urlString (u : url) : string :=
  if negb (String.eqb (u_opaque u) "") then
    ((if String.eqb (u_scheme u) "" then "" else u_scheme u ++ ":") ++ u_opaque u ++ queryPart u ++
     (if String.eqb (u_fragment u) "" then "" else "#" ++ escapePath (u_fragment u)))%string
  else
    let head := (if String.eqb (u_scheme u) "" then "" else u_scheme u ++ ":")%string in
    let authority :=
      if String.eqb (u_scheme u) "" && String.eqb (u_host u) "" then ""
      else if u_omitHost u && String.eqb (u_host u) "" then ""
      else ((if String.eqb (u_host u) "" && String.eqb (u_path u) "" then "" else "//") ++ u_host u)%string in
    let p := escapedPath u in
    let slash := if negb (String.eqb p "") && negb (has_prefix "/" p) && negb (String.eqb (u_host u) "") then "/" else "" in
    (head ++ authority ++ slash ++ p ++ queryPart u ++
     (if String.eqb (u_fragment u) "" then "" else "#" ++ escapePath (u_fragment u)))%string.

(** JoinPath of one element, [None] if setPath fails: then the URL keeps the old path *)
Definition joinedPath (u : url) (elem : string) : string :=
  let e := escapedPath u in
  let p := if has_prefix "/" e then pathJoin e elem else drop 1 (pathJoin ("/" ++ e) elem) in
  if has_suffix "/" elem && negb (has_suffix "/" p) then (p ++ "/")%string else p.
Definition urlJoinPath (u : url) (elem : string) : url :=
  match setPath u (joinedPath u elem) with Some v => v | None => u end.

(** ** The clients *)

(** chat.gen.go 609-616 *)
Definition serviceURL (addr prefix : string) : string :=
  match urlParse addr with
  | None => (addr ++ prefix)%string
  | Some u =>
      if String.eqb (u_host u) "" then (addr ++ prefix)%string
      else urlString (urlJoinPath (Url (u_scheme u) (u_opaque u) (u_host u) (u_path u) (u_rawPath u) (u_omitHost u)
                                       (u_forceQuery u) "" "") prefix)
  end.

(** example.gen.go 492-503 *)
Definition urlBase (addr : string) : string :=
  match urlParse addr with
  | None => addr
  | Some u =>
      urlString (if String.eqb (u_scheme u) ""
                 then Url "http" (u_opaque u) (u_host u) (u_path u) (u_rawPath u) (u_omitHost u) (u_forceQuery u) (u_rawQuery u) (u_fragment u)
                 else u)
  end.

(** chat.gen.go 156-160 and example.gen.go 189-193: the URL of a method *)
Definition goMethodURL (addr prefix method : string) : string := (serviceURL addr prefix ++ method)%string.
Definition oldMethodURL (addr prefix method : string) : string := (urlBase addr ++ prefix ++ method)%string.

(** client.gen.ts 107: hostname.replace(/\/*$/, '') *)
Fixpoint stripSlashes (s : string) : string :=
  match s with
  | EmptyString => EmptyString
  | String c r =>
      match stripSlashes r with
      | EmptyString => if Ascii.eqb c "/" then EmptyString else String c EmptyString
      | t => String c t
      end
  end.
(** client.gen.ts 111-113 *)
Definition tsMethodURL (hostname prefix method : string) : string := (stripSlashes hostname ++ prefix ++ method)%string.

(** ** The way to the server *)

(** net/http's client and server for a POST to an URL text: the host it goes to and r.URL.Path there.  [None]: the
    request is not sent, or refused before the handler is called. *)
Definition goSends (u : string) : option (string * string) :=
  match urlParse u with
  | None => None
  | Some v =>
      if negb (str_in (u_scheme v) ["http"; "https"]) || String.eqb (u_host v) "" then None
      else
        let target := ((if String.eqb (escapedPath v) "" then "/" else escapedPath v) ++ queryPart v)%string in
        match parse true target with
        | None => None
        | Some w => Some (u_host v, u_path w)
        end
  end.

(** a browser: the URL standard's path of an http or https URL, up to "?" or "#", whose segments are separated by "/" or "\" *)
Definition slashes (s : string) : string := smap (fun c => if Ascii.eqb c "\" then "/"%char else c) s.
Definition singleDot (s : string) : bool := String.eqb s "." || String.eqb (to_lower s) "%2e".
Definition doubleDot (s : string) : bool :=
  str_in (to_lower s) [".."; ".%2e"; "%2e."; "%2e%2e"].
(** the path percent-encode set *)
Definition plainInWebPath (c : ascii) : bool :=
  (33 <=? N_of_byte c)%N && (N_of_byte c <? 127)%N && negb (contains_byte c """#<>?`{}^").
Fixpoint webSegments (l : list string) (acc : list string) : list string :=
  match l with
  | [] => acc
  | [e] =>
      if doubleDot e then removelast acc ++ [""]
      else if singleDot e then acc ++ [""]
      else acc ++ [escapeWith plainInWebPath e]
  | e :: r =>
      if doubleDot e then webSegments r (removelast acc)
      else if singleDot e then webSegments r acc
      else webSegments r (acc ++ [escapeWith plainInWebPath e])
  end.
(** the path a browser asks for, of the rest of an URL after the host *)
Definition webPath (s : string) : string :=
  let p := fst (cutByte "?" (fst (cutByte "#" s))) in
  match p with
  | EmptyString => "/"
  | String _ r => ("/" ++ join "/" (webSegments (split_byte "/" (slashes r)) []))%string
  end.
(** r.URL.Path at the server; [None]: refused *)
Definition webSends (rest : string) : option string := option_map u_path (parse true (webPath rest)).
