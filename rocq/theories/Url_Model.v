(** Model of names on their way through URLs: how clients put them into a request, how the
    request is read, and the name a handler gets.

    Source: src/apiserver/internal/controller/http/server.go 25-40, objects_api.go 23-26,
    bucket_api.go 18-23, big_api.go 34-38, 109-119, src/apiserver/internal/entity/dto.go 62-70,
    src/adminserver/internal/usecase/webapi/api_server.go 15-72, 108-140,
    src/metaserver/internal/controller/http/http.go 20-33, middleware.go 37-53,
    src/metaserver/internal/usecase/logic/discover_logic.go 17-29.
    The functions of net/url (Go 1.20) and the lookup of gin (1.9.1) are modelled too.

    Simplified: redirects of gin for paths with a slash too many are left out (such paths
    have no handler); hosts are well formed; the elements of a path are not cleaned by
    [url.JoinPath] (no [.] or [..] among them). *)
From Coq Require Import Ascii String List Bool.
From Verif Require Import Str_Model Path_Model.
Import ListNotations.
Local Open Scope list_scope.

(** ** Escaping (net/url) *)

Definition isc (c : ascii) (s : string) : bool := existsb (Ascii.eqb c) (s2l s).

(** [shouldEscape]: letters, digits and [-_.~] never. *)
Definition unreserved (c : ascii) : bool :=
  isc c "abcdefghijklmnopqrstuvwxyzABCDEFGHIJKLMNOPQRSTUVWXYZ0123456789-_.~".

(** [encodePath], [encodePathSegment], [encodeQueryComponent]. *)
Inductive emode := EPath | ESegment | EQuery.

(** [shouldEscape]: of the reserved characters a path escapes [?] only. *)
Definition should_escape (m : emode) (c : ascii) : bool :=
  negb (unreserved c) &&
  (if isc c "$&+,/:;=?@" then
     match m with EPath => isc c "?" | ESegment => isc c "/;,?" | EQuery => true end
   else true).

(** Upper case digits for writing, either case for reading ([upperhex], [unhex]). *)
Definition hexd (b3 b2 b1 b0 : bool) : ascii :=
  match b3, b2, b1, b0 with
  | false, false, false, false => "0" | false, false, false, true => "1" | false, false, true, false => "2" | false, false, true, true => "3"
  | false, true, false, false => "4" | false, true, false, true => "5" | false, true, true, false => "6" | false, true, true, true => "7"
  | true, false, false, false => "8" | true, false, false, true => "9" | true, false, true, false => "A" | true, false, true, true => "B"
  | true, true, false, false => "C" | true, true, false, true => "D" | true, true, true, false => "E" | true, true, true, true => "F"
  end%char.
Definition unhex (c : ascii) : option (bool * bool * bool * bool) :=
  match c with
  | "0" => Some (false, false, false, false) | "1" => Some (false, false, false, true) | "2" => Some (false, false, true, false)
  | "3" => Some (false, false, true, true) | "4" => Some (false, true, false, false) | "5" => Some (false, true, false, true)
  | "6" => Some (false, true, true, false) | "7" => Some (false, true, true, true) | "8" => Some (true, false, false, false)
  | "9" => Some (true, false, false, true) | "a" | "A" => Some (true, false, true, false) | "b" | "B" => Some (true, false, true, true)
  | "c" | "C" => Some (true, true, false, false) | "d" | "D" => Some (true, true, false, true) | "e" | "E" => Some (true, true, true, false)
  | "f" | "F" => Some (true, true, true, true) | _ => None
  end%char.

(** [escape], one character. *)
Definition escape1 (m : emode) (c : ascii) : str :=
  if match m with EQuery => Ascii.eqb c " " | _ => false end then ["+"%char]
  else if should_escape m c then
    match c with Ascii b0 b1 b2 b3 b4 b5 b6 b7 => ["%"%char; hexd b7 b6 b5 b4; hexd b3 b2 b1 b0] end
  else [c].
Definition escape (m : emode) (s : str) : str := flat_map (escape1 m) s.

(** [unescape]: [None] is an error. *)
Fixpoint unescape (m : emode) (s : str) : option str :=
  match s with
  | [] => Some []
  | c :: r =>
      if Ascii.eqb c "%" then
        match r with
        | h :: l :: r' =>
            match unhex h, unhex l with
            | Some (b7, b6, b5, b4), Some (b3, b2, b1, b0) =>
                match unescape m r' with Some t => Some (Ascii b0 b1 b2 b3 b4 b5 b6 b7 :: t) | None => None end
            | _, _ => None
            end
        | _ => None
        end
      else
        match unescape m r with
        | Some t => Some ((match m with EQuery => if Ascii.eqb c "+" then " "%char else c | _ => c end) :: t)
        | None => None
        end
  end.

(** [validEncoded] for paths. *)
Definition valid_encoded (s : str) : bool := forallb (fun c => isc c "!$&'()*+,;=:@[]%" || negb (should_escape EPath c)) s.

(** ** URLs (net/url) *)

(** The path of a [URL]: decoded, and as it was written if that is not the usual way. *)
Record upath := mk_upath { u_path : str; u_raw : str }.

(** [setPath]. *)
Definition set_path (p : str) : option upath :=
  match unescape EPath p with
  | None => None
  | Some q => Some (mk_upath q (if str_eqb (escape EPath q) p then [] else p))
  end.

(** [EscapedPath]. *)
Definition escaped_path (u : upath) : str :=
  if negb (str_eqb (u_raw u) []) && valid_encoded (u_raw u) &&
     match unescape EPath (u_raw u) with Some q => str_eqb q (u_path u) | None => false end
  then u_raw u
  else if str_eqb (u_path u) (s2l "*"%string) then s2l "*"%string else escape EPath (u_path u).

(** [stringContainsCTLByte]. *)
Definition ctl (c : ascii) : bool :=
  match c with Ascii b0 b1 b2 b3 b4 b5 b6 b7 =>
    negb (b5 || b6 || b7) || (b0 && b1 && b2 && b3 && b4 && b5 && b6 && negb b7) end.

Definition before (sep : ascii) (s : str) : str := match cut_on sep s with Some (a, _) => a | None => s end.
Definition after (sep : ascii) (s : str) : str := match cut_on sep s with Some (_, b) => b | None => [] end.

(** [Parse] of a text, from the path on: the path and the query. *)
Definition parse_url (t : str) : option (upath * str) :=
  let u := before "#"%char t in
  if existsb ctl u then None
  else match unescape EPath (after "#"%char t) with
       | None => None
       | Some _ => match set_path (before "?"%char u) with Some p => Some (p, after "?"%char u) | None => None end
       end.

(** What a client sends for a text: path and query of the request line. *)
Definition sent (t : str) : option (str * str) :=
  match parse_url t with Some (u, q) => Some (escaped_path u, q) | None => None end.

(** ** Reading a request *)

(** [ParseRequestURI] of a path. *)
Definition parse_request (p : str) : option upath := if existsb ctl p then None else set_path p.

Inductive seen := SBad | SNone | SName (n : str).

(** gin's lookup of a route [prefix]/:name with [UseRawPath] ([handleHTTPRequest],
    [getValue]); [unesc] is [UnescapePathValues]. *)
Definition param (unesc : bool) (prefix : str) (path : str) : seen :=
  match parse_request path with
  | None => SBad
  | Some u =>
      let given := negb (str_eqb (u_raw u) []) in
      match strip prefix (if given then u_raw u else u_path u) with
      | None => SNone
      | Some v =>
          if str_eqb v [] || existsb (Ascii.eqb "/"%char) v then SNone
          else SName (if given && unesc then match unescape EQuery v with Some w => w | None => v end else v)
      end
  end.

(** server.go 27-28 of the API server: values are not unescaped. *)
Definition api_param : str -> str -> seen := param false.
(** http.go 28-29 of the metadata server: they are. *)
Definition meta_param : str -> str -> seen := param true.

Definition objects_route : str := s2l "/v1/objects/"%string.
Definition bucket_route : str := s2l "/v1/bucket/"%string.
Definition big_route : str := s2l "/v1/big/"%string.
Definition metadata_route : str := s2l "/metadata/"%string.

(** ** The admin server as a client *)

Inductive reached := RErr | RSeen (s : seen) (query : str).

Definition reach (route : str) (t : str) : reached :=
  match sent t with None => RErr | Some (p, q) => RSeen (api_param route p) q end.

(** api_server.go 36-38 [PutObjects]. *)
Definition admin_put (name : str) : reached := reach objects_route (objects_route ++ escape ESegment name).
(** api_server.go 57-58 [GetObjects]; [v] is the version in digits. *)
Definition admin_get (name v : str) : reached := reach objects_route (objects_route ++ name ++ s2l "?version="%string ++ v).
(** api_server.go 108-109 [UpdateBucket], 125-126 [DeleteBucket]. *)
Definition admin_bucket (name : str) : reached := reach bucket_route (bucket_route ++ name).

(** ** Tokens of uploads *)

(** big_api.go 112: the address given to the client. *)
Definition token_location (token : str) : str := big_route ++ escape ESegment token.
(** dto.go 62-69 [Bind], big_api.go 118: the token read from the parameter. *)
Definition token_read (path : str) : option str :=
  match api_param big_route path with SName v => unescape ESegment v | _ => None end.

(** ** Directions to other metadata servers *)

(** discover_logic.go 22-29 [PeerLocation] for a request of path and query. *)
Definition peer_location (ip : str) (u : upath) (query : str) : str := s2l "http://"%string ++ ip ++ u_raw u.
