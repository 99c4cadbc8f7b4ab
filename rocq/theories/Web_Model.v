(** Model of the web console: the files the admin server sends to browsers, the page it sends them to, and
    the requests the console makes.

    Source: src/adminserver/resource/embed.go 21-52, configjs.go 14-40, src/adminserver/internal/controller/
    http_server.go 20-56, http/auth.go 45-62, metadata.go 21-35, object.go 20-27, server_state.go 21-28,
    src/adminserver/ui/src/api/base.js, auth.ts, metadata.ts, objects.ts, server-stat.ts,
    src/adminserver/ui/src/pages/index.vue 96-103. The functions of net/http, gin-contrib/static,
    gin-contrib/cors and vue-router that they call are modelled too.

    Simplified: one range of a file at most; the session cookie is left out (Console_Model has it); the
    browser is modelled on texts of ASCII characters that are no control characters, without backslashes
    and dot segments. *)
From Coq Require Import Ascii String List Bool Arith.
From Verif Require Import Str_Model Path_Model Url_Model.
Import ListNotations.
Local Open Scope list_scope.

Definition begins (p s : str) : bool := match strip p s with Some _ => true | None => false end.
Definition ends (p s : str) : bool := begins (rev p) (rev s).

(** ** Files *)

(** The embedded files by their paths (embed.go 12-13, 54-63). *)
Inductive entry := File (data : str) | Dir.
Definition tree := str -> option entry.

(** A file as it is opened (embed.go 21-27): every name that ends in config.js gets other content. *)
Inductive opened := Plain (data : str) | Config (under : str) | ODir.
Definition open (fs : tree) (name : str) : option opened :=
  match fs name with
  | None => None
  | Some Dir => Some ODir
  | Some (File d) => Some (if ends (s2l "config.js"%string) name then Config d else Plain d)
  end.

(** embed.go 29-52 [Exists]. *)
Definition exists_file (fs : tree) (path : str) : bool :=
  if begins (s2l "/api"%string) path then false
  else match open fs (if str_eqb path (s2l "/"%string) then s2l "/index.html"%string else path) with
       | None | Some ODir => false
       | Some _ => true
       end.

(** configjs.go 27-30 [newConfigJS]. *)
Definition config_js (port : str) : str := s2l "window.backendPort = "%string ++ port.

Definition slice (a b : nat) (d : str) : str := firstn (S b - a) (skipn a d).

(** What [http.ServeContent] sends of a file, whole or from byte [a] to byte [b]; [None] is 416.  Reading
    config.js begins at its start whatever was sought (configjs.go 37-40); seeking is done in the embedded
    file and refused behind its end. *)
Definition content (port : str) (o : opened) (range : option (nat * nat)) : option str :=
  let of d (read : nat -> nat -> option str) :=
    match range with
    | None => Some d
    | Some (a, b) => if a <? List.length d then read a (Nat.min b (List.length d - 1)) else None
    end in
  match o with
  | Plain d => of d (fun a b => Some (slice a b d))
  | Config u => of (config_js port) (fun a b => if a <=? List.length u then Some (firstn (S b - a) (config_js port)) else None)
  | ODir => None
  end.

(** ** Requests *)

(** A route: method and path, [None] for a parameter (auth.go 46-53, metadata.go 22-34, object.go 21-26,
    server_state.go 22-27, below the group /api of http_server.go 38). *)
Definition pattern := list (option str).
Definition lit (s : string) : option str := Some (s2l s).
Definition api (g : string) (l : pattern) : pattern := lit "api" :: lit g :: l.
Definition routes : list (str * pattern) := map (fun r => (s2l (fst r), snd r))
  [ ("POST"%string, [lit "api"; lit "logout"]); ("POST"%string, [lit "api"; lit "login"]);
    ("GET"%string, api "metadata" [lit "page"]); ("GET"%string, api "metadata" [lit "versions"]);
    ("POST"%string, api "metadata" [lit "migration"]); ("GET"%string, api "metadata" [lit "slots_detail"]);
    ("GET"%string, api "metadata" [lit "peers"]); ("GET"%string, api "metadata" [lit "buckets"]);
    ("POST"%string, api "metadata" [lit "create_bucket"]); ("PUT"%string, api "metadata" [lit "update_bucket"]);
    ("DELETE"%string, api "metadata" [lit "delete_bucket"; None]); ("POST"%string, api "metadata" [lit "leave_cluster"]);
    ("POST"%string, api "metadata" [lit "join_leader"]); ("GET"%string, api "metadata" [lit "config"; None]);
    ("GET"%string, api "server" [lit "stat"]); ("GET"%string, api "server" [lit "overview"]);
    ("GET"%string, api "server" [lit "etcdstat"]); ("GET"%string, api "server" [None; lit "timeline"]);
    ("GET"%string, api "server" [lit "config"]);
    ("GET"%string, api "objects" [lit "download"; None]); ("PUT"%string, api "objects" [lit "upload"]);
    ("POST"%string, api "objects" [lit "join"; None]); ("POST"%string, api "objects" [lit "leave"; None]);
    ("GET"%string, api "objects" [lit "config"; None]) ].

(** The parameters of a path that fits a pattern (gin's lookup in the decoded path). *)
Fixpoint fits (p : pattern) (segs : list str) : option (list str) :=
  match p, segs with
  | [], [] => Some []
  | Some l :: p', s :: r => if str_eqb l s then fits p' r else None
  | None :: p', s :: r => match s, fits p' r with [], _ => None | _, Some xs => Some (s :: xs) | _, None => None end
  | _, _ => None
  end.
Definition segments (path : str) : list str :=
  match path with "/"%char :: r => split_on "/"%char r | _ => [] end.
Fixpoint lookup (rs : list (str * pattern)) (m path : str) : option (pattern * list str) :=
  match rs with
  | [] => None
  | (m', p) :: r =>
      if str_eqb m m' then match fits p (segments path) with Some xs => Some (p, xs) | None => lookup r m path end
      else lookup r m path
  end.

(** The answers: a file, the index at its other address, a handler with its parameters, 404 without a
    body, 308. *)
Inductive answer := Sent (body : option str) | ToIndex | Handled (p : pattern) (xs : list str) | Nothing | Redirect (location : str).

(** http_server.go 45-54. *)
Definition no_route (path query : str) : answer :=
  if begins (s2l "/api"%string) path then Nothing
  else if str_eqb path (s2l "/favicon.ico"%string) then Nothing
  else Redirect (s2l "/?redirect="%string ++ path ++ "&"%char :: query).

(** http_server.go 24-54: the files, then the routes.  The index is sent for the root only
    ([http.FileServer] redirects its own name). *)
Definition answers (fs : tree) (port m path query : str) (range : option (nat * nat)) : answer :=
  if exists_file fs path then
    if str_eqb path (s2l "/index.html"%string) then ToIndex
    else match open fs (if str_eqb path (s2l "/"%string) then s2l "/index.html"%string else path) with
         | Some o => Sent (content port o range)
         | None => Nothing
         end
  else match lookup routes m path with
       | Some (p, xs) => Handled p xs
       | None => no_route path query
       end.

(** ** The page a browser shows *)

(** [decode] of vue-router: the text itself if it is not well escaped. *)
Definition decode (s : str) : str := match unescape EPath s with Some t => t | None => s end.
Definition plus_to_space (s : str) : str := map (fun c => if Ascii.eqb c "+"%char then " "%char else c) s.
(** [parseQuery] of vue-router: keys and values; pieces without anything are left out. *)
Definition param_of (piece : str) : str * option str :=
  let p := plus_to_space piece in
  match cut_on "="%char p with Some (k, v) => (decode k, Some (decode v)) | None => (decode p, None) end.
Definition params (query : str) : list (str * option str) :=
  map param_of (filter (fun p => negb (str_eqb p [])) (split_on "&"%char query)).

(** index.vue 96-103: the page the index goes on to, with the parameters left; [None] if it stays or, for
    several parameters of the name, does not know. *)
Definition index_goes (location : str) : option (str * list (str * option str)) :=
  let ps := params (after "?"%char (before "#"%char location)) in
  let is_redirect e := str_eqb (fst e) (s2l "redirect"%string) in
  match filter is_redirect ps with
  | [(_, Some (c :: r))] => Some (c :: r, filter (fun e => negb (is_redirect e)) ps)
  | _ => None
  end.

(** ** Requests of the console *)

(** The calls that put a name into a path (metadata.ts 12, objects.ts 13, 33, 37), and the other ones with
    what they ask for. *)
Inductive call :=
| RemoveBucket (name : str) | Download (name bucket version : str) | Join (id : str) | Leave (id : str)
| Plainly (m : string) (path : string).
(** auth.ts 4-8, metadata.ts 4-70, objects.ts 7, server-stat.ts 4-24 (parameters of the query left out). *)
Definition plain_calls : list call :=
  [ Plainly "POST" "/login"; Plainly "POST" "/logout"; Plainly "POST" "/metadata/create_bucket";
    Plainly "PUT" "/metadata/update_bucket"; Plainly "GET" "/metadata/buckets"; Plainly "GET" "/metadata/page";
    Plainly "GET" "/metadata/versions"; Plainly "GET" "/metadata/slots_detail"; Plainly "POST" "/metadata/migration";
    Plainly "GET" "/metadata/peers"; Plainly "POST" "/metadata/join_leader"; Plainly "POST" "/metadata/leave_cluster";
    Plainly "PUT" "/objects/upload"; Plainly "GET" "/server/stat"; Plainly "GET" "/server/cpu/timeline";
    Plainly "GET" "/server/mem/timeline"; Plainly "GET" "/server/overview"; Plainly "GET" "/server/etcdstat"; Plainly "GET" "/server/config" ].

(** The method and the text given to axios behind its base URL (base.js 4). *)
Definition call_text (c : call) : str * str :=
  let base := s2l "/api"%string in
  match c with
  | RemoveBucket n => (s2l "DELETE"%string, base ++ s2l "/metadata/delete_bucket/"%string ++ n)
  | Download n b v => (s2l "GET"%string, base ++ s2l "/objects/download/"%string ++ n ++ s2l "?version="%string ++ v ++ s2l "&bucket="%string ++ b)
  | Join i => (s2l "POST"%string, base ++ s2l "/objects/join/"%string ++ i)
  | Leave i => (s2l "POST"%string, base ++ s2l "/objects/leave/"%string ++ i)
  | Plainly m p => (s2l m, base ++ s2l p)
  end.

(** What the browser asks of a text and the server decodes; [None] is 400. *)
Definition asked (t : str) : option (str * str) :=
  let u := before "#"%char t in
  match unescape EPath (before "?"%char u) with Some p => Some (p, after "?"%char u) | None => None end.
Inductive reached := Refused | Got (a : answer) (query : str).
Definition console_call (fs : tree) (port : str) (c : call) : reached :=
  let (m, t) := call_text c in
  match asked t with None => Refused | Some (p, q) => Got (answers fs port m p q None) q end.

(** The first value of a key in a query ([url.ParseQuery], [Get]). *)
Fixpoint query_get (pieces : list str) (key : str) : option str :=
  match pieces with
  | [] => None
  | p :: r =>
      if existsb (Ascii.eqb ";"%char) p then query_get r key
      else let (k, v) := match cut_on "="%char p with Some kv => kv | None => (p, []) end in
           match unescape EQuery k, unescape EQuery v with
           | Some k', Some v' => if str_eqb k' key && negb (str_eqb p []) then Some v' else query_get r key
           | _, _ => query_get r key
           end
  end.
Definition value (query key : str) : option str := query_get (split_on "&"%char query) key.

(** ** Other origins *)

(** http_server.go 32-33. *)
Definition cors_methods : list str := map s2l ["PUT"; "PATCH"; "POST"; "GET"; "OPTION"]%string.
Definition cors_headers : list str := map s2l ["Authorization"; "Content-Type"; "Accept"; "Refer"]%string.
Definition cors_exposed : list str := map s2l ["X-Total-Count"]%string.
(** A browser asks before a request from another origin; GET, HEAD and POST are always methods allowed
    (Fetch standard). *)
Definition browser_lets (m : str) (headers : list str) : bool :=
  (existsb (str_eqb m) (map s2l ["GET"; "HEAD"; "POST"]%string) || existsb (str_eqb m) cors_methods) &&
  forallb (fun h => existsb (str_eqb h) cors_headers) headers.
(** base.js 10, axios' content types and the header the pages read (metadata.ts 19, 30, 41). *)
Definition console_headers : list str := map s2l ["Authorization"; "Content-Type"; "Accept"]%string.
Definition console_reads : list str := map s2l ["X-Total-Count"]%string.
