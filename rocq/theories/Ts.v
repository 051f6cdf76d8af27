(** Model of the generated TypeScript client: the reader of streams, the reader
    of answers and the error classes, _examples/webrpc-streaming/webapp/src/rpc.gen.ts. *)
From Verif Require Import Base Utf8 Json GoVal Rpc.
Local Open Scope N_scope.

(** ** TextDecoder *)

(** The UTF-8 decoder of the Encoding standard, as [new TextDecoder()] (rpc.gen.ts 149): the code point so far,
    the bytes still needed, and the range of the next byte; "b AND 0x1F" and the like are written as
    subtractions. *)
Record dstate := DState { ds_cp : N; ds_need : nat; ds_lo : N; ds_hi : N }.
Definition dstart : dstate := DState 0 0 0x80 0xBF.

Definition leadByte (b : N) : dstate * list N :=
  if b <? 0x80 then (dstart, [b])
  else if (0xC2 <=? b) && (b <=? 0xDF) then (DState (b - 0xC0) 1 0x80 0xBF, [])
  else if (0xE0 <=? b) && (b <=? 0xEF) then
    (DState (b - 0xE0) 2 (if b =? 0xE0 then 0xA0 else 0x80) (if b =? 0xED then 0x9F else 0xBF), [])
  else if (0xF0 <=? b) && (b <=? 0xF4) then
    (DState (b - 0xF0) 3 (if b =? 0xF0 then 0x90 else 0x80) (if b =? 0xF4 then 0x8F else 0xBF), [])
  else (dstart, [replacement]).

Definition decodeByte (d : dstate) (b : N) : dstate * list N :=
  match ds_need d with
  | O => leadByte b
  | S k =>
      if (ds_lo d <=? b) && (b <=? ds_hi d) then
        let cp := ds_cp d * 64 + (b - 0x80) in
        match k with
        | O => (dstart, [cp])
        | S _ => (DState cp k 0x80 0xBF, [])
        end
      else let (d', out) := leadByte b in (d', replacement :: out)
  end.

Fixpoint decodeBytes (d : dstate) (s : string) : dstate * list N :=
  match s with
  | EmptyString => (d, [])
  | String c r =>
      let (d1, o1) := decodeByte d (N_of_byte c) in
      let (d2, o2) := decodeBytes d1 r in
      (d2, o1 ++ o2)
  end.

(** the first code point is dropped if it is a byte order mark *)
Definition dropBOM (seen : bool) (out : list N) : bool * list N :=
  if seen then (true, out)
  else match out with
       | [] => (false, [])
       | c :: r => (true, if c =? 0xFEFF then r else out)
       end.

(** decoder.decode(value, {stream: true}) *)
Record decoder := Decoder { de_state : dstate; de_bom : bool }.
Definition newDecoder : decoder := Decoder dstart false.
Definition decodeChunk (d : decoder) (chunk : string) : decoder * list N :=
  let (s, out) := decodeBytes (de_state d) chunk in
  let (seen, out) := dropBOM (de_bom d) out in
  (Decoder s seen, out).

(** res.text(): the whole body at once; an unfinished sequence at the end is U+FFFD *)
Definition decodeText (body : string) : list N :=
  let (s, out) := decodeBytes dstart body in
  snd (dropBOM false (out ++ match ds_need s with O => [] | _ => [replacement] end)).

(** ** JSON.parse

    Simplification: of the reader of Json.v, so the nesting limit of Go and its treatment of lone surrogates in
    escapes; numbers stay literals. *)
Definition jsParse (text : list N) : option json := parseJ (encode text).

(** obj.key for a value JSON.parse returned, other than null; the last of several members counts *)
Definition getMember (k : string) (j : json) : option json :=
  match j with
  | JObj l => fold_left (fun acc e => if String.eqb (fst e) k then Some (snd e) else acc) l None
  | _ => None
  end.

(** ** Errors, rpc.gen.ts 315-523 *)

(** a class: its name, and the defaults of its constructor *)
Record tsClass := TsClass { tc_name : string; tc_code : Z; tc_message : string; tc_status : Z }.

(** an error object: its class, name, code, message, status and cause.  code and status are numbers. *)
Record tsError := TsError { te_class : tsClass; te_code : json; te_message : string; te_status : json; te_cause : option json }.

(** typeof x === 'number' ? x : default *)
Definition orNumber (x : option json) (d : Z) : json :=
  match x with Some (JNum l) => JNum l | _ => JNum (zdec d) end.

(** error.message || default: the message of the payload if it is a string other than the empty one.
    Simplification: messages that are no strings are taken as absent. *)
Definition orText (x : option json) (d : string) : string :=
  match x with
  | Some (JStr s) => if isEmptyStr s then d else s
  | _ => d
  end.

(** [static new] and the constructors, rpc.gen.ts 325-339: message, code, status and cause of the payload *)
Definition newError (c : tsClass) (payload : json) : tsError :=
  TsError c (orNumber (getMember "code" payload) (tc_code c)) (orText (getMember "message" payload) (tc_message c))
    (orNumber (getMember "status" payload) (tc_status c)) (getMember "cause" payload).

(** rpc.gen.ts 320-340: the base class *)
Definition WebrpcError : tsClass := TsClass "WebrpcEndpointError" 0 "endpoint error" 400.

(** webrpcErrorByCode, rpc.gen.ts 510-523: a table from codes to classes.  A code that is not an integer literal
    is in no table. *)
Definition codeOf (j : json) : Z :=
  match getMember "code" j with
  | Some (JNum l) => match parseInt (- (2 ^ 53)) (2 ^ 53) l with Some z => z | None => 2 ^ 60 end
  | _ => 0
  end%Z.
Definition classFor (table : list tsClass) (code : Z) : tsClass :=
  match find (fun c => (tc_code c =? code)%Z) table with Some c => c | None => WebrpcError end.

(** the classes of the built-in errors, rpc.gen.ts 343-484 *)
Definition builtinClasses : list tsClass :=
  [ TsClass "WebrpcEndpoint" 0 "endpoint error" 400;
    TsClass "WebrpcRequestFailed" (-1) "request failed" 400;
    TsClass "WebrpcBadRoute" (-2) "bad route" 404;
    TsClass "WebrpcBadMethod" (-3) "bad method" 405;
    TsClass "WebrpcBadRequest" (-4) "bad request" 400;
    TsClass "WebrpcBadResponse" (-5) "bad response" 500;
    TsClass "WebrpcServerPanic" (-6) "server panic" 500;
    TsClass "WebrpcInternalError" (-7) "internal error" 500;
    TsClass "WebrpcClientAborted" (-8) "request aborted by client" 400;
    TsClass "WebrpcStreamLost" (-9) "stream lost" 400;
    TsClass "WebrpcStreamFinished" (-10) "stream finished" 200 ].

(** ** Answers, rpc.gen.ts 246-264 buildResponse *)

Inductive tsResult : Type :=
| TsData (data : json)
| TsFails (e : tsError)
(** data.code of null throws a TypeError *)
| TsThrows.

Definition ok (status : Z) : bool := ((200 <=? status) && (status <=? 299))%Z.

(** the payload of the errors the client makes itself: [status], [cause] is left out *)
Definition ownError (code : Z) : tsError :=
  newError (classFor builtinClasses code) (JObj []).

Definition badResponse (status : Z) : tsError :=
  newError (classFor builtinClasses (-5)) (JObj [("status", JNum (zdec status))]).

Definition buildResponse (table : list tsClass) (status : Z) (body : string) : tsResult :=
  match jsParse (decodeText body) with
  | None => TsFails (badResponse status)
  | Some data =>
      if ok status then TsData data
      else match data with
           | JNull => TsThrows
           | _ => TsFails (newError (classFor table (codeOf data)) data)
           end
  end.

(** ** Streams, rpc.gen.ts 118-237 sseResponse, from onOpen on *)

(** the calls of the callbacks; [OnMessage None] is onMessage(undefined).
    Simplification: the callbacks do not throw, and the retry function passed to onError is left out. *)
Inductive event : Type :=
| OnMessage (data : option json)
| OnError (e : tsError)
| OnClose.

(** buffer.split("\n"); never empty *)
Fixpoint splitLF (t : list N) : list (list N) :=
  match t with
  | [] => [[]]
  | c :: r => if c =? 10 then [] :: splitLF r
              else match splitLF r with
                   | l :: ls => (c :: l) :: ls
                   | [] => [[c]]
                   end
  end.

(** rpc.gen.ts 193-230: one line; true: return.  A payload null, or one with a member called hasOwnProperty, throws
    inside the try; so does a webrpcError null. *)
Definition onLine (table : list tsClass) (status : Z) (line : list N) : list event * bool :=
  match line with
  | [] => ([], false)
  | _ =>
      match jsParse line with
      | None => ([OnError (badResponse status); OnMessage None], false)
      | Some data =>
          match data, getMember "hasOwnProperty" data with
          | JNull, _ | _, Some _ => ([OnError (badResponse status); OnMessage (Some data)], false)
          | _, None =>
              match getMember "webrpcError" data with
              | Some JNull => ([OnError (badResponse status); OnMessage (Some data)], false)
              | Some payload => ([OnError (newError (classFor table (codeOf payload)) payload)], true)
              | None => ([OnMessage (Some data)], false)
              end
          end
      end
  end.

Fixpoint onLines (table : list tsClass) (status : Z) (lines : list (list N)) : list event * bool :=
  match lines with
  | [] => ([], false)
  | l :: r =>
      let (es, stop) := onLine table status l in
      if stop then (es, true)
      else let (es', stop') := onLines table status r in (es ++ es', stop')
  end.

(** how reading ends: done, or reader.read() throws an AbortError or something else (also the timeout, 154-160) *)
Inductive readEnd : Type := ReadDone | ReadAborted | ReadLost.

(** rpc.gen.ts 162-236.  When done, value is undefined and decodes to nothing. *)
Fixpoint readLoop (table : list tsClass) (status : Z) (e : readEnd) (chunks : list string) (d : decoder) (buffer : list N) : list event :=
  match chunks with
  | [] =>
      match e with
      | ReadAborted => [OnError (newError (classFor builtinClasses (-8)) (JObj [("message", JStr "AbortError")]))]
      | ReadLost => [OnError (ownError (-9))]
      | ReadDone =>
          let (es, stop) := onLines table status (removelast (splitLF buffer)) in
          if stop then es else es ++ [OnClose]
      end
  | c :: rest =>
      let (d', out) := decodeChunk d c in
      let buffer := buffer ++ out in
      let lines := splitLF buffer in
      let (es, stop) := onLines table status (removelast lines) in
      if stop then es else es ++ readLoop table status e rest d' (last lines [])
  end.

Definition sseResponse (table : list tsClass) (status : Z) (e : readEnd) (chunks : list string) : list event :=
  readLoop table status e chunks newDecoder [].
