(** Model of how the servers turn a request into the values their handlers work with.

    Source: src/apiserver/internal/entity/binder.go 8-29, dto.go 23-96,
    src/metaserver/internal/entity/binder.go 8-22, src/objectserver/internal/entity/binder.go
    8-20, dto.go 13-23, src/adminserver/internal/entity/binder.go 8-29, and the handlers
    cited at each structure below.

    External: gin 1.9.1 (binding/form_mapping.go, header.go, uri.go, json.go) and
    encoding/json.  A pass over one source sets the fields in order from the key in the
    field's tag for the source or, without such a tag, from the field's Go name; a missing
    key keeps the field; a text that does not convert ends the pass with an error and
    without validation; then the rules of all fields are checked.  The empty text converts
    to 0 or false.  Simplified: ASCII header names; keys of a JSON body are compared
    exactly; a number in a JSON body is an integer. *)
From Verif Require Export Str_Model Util_Model.
Local Open Scope Z_scope.
Local Open Scope list_scope.

(** ** Structures *)

(** The sources a binding reads (binding.Uri, Query, Header, JSON). *)
Inductive source := Uri | Query | Header | Json.

(** Go types of fields: text, signed integer of so many bits, bool, slice of texts,
    structure (with the names of its own fields), interface. *)
Inductive kind := KText | KInt (bits : Z) | KBool | KList | KStruct (inner : list str) | KIface.

(** Values; a structure is the texts it was decoded from. *)
Inductive value := VText (s : str) | VInt (z : Z) | VBool (b : bool) | VList (l : list str).

(** The rules of the tag binding: none, required, min=n (the same as gte=n). *)
Inductive rule := Any | Required | Min (n : Z).

(** A field: its Go name, its tags uri, form, header, json, its type and rule. *)
Record field := mk_field {
  f_go : str; f_uri : option str; f_form : option str; f_header : option str; f_json : option str;
  f_kind : kind; f_rule : rule }.

(** ** Requests *)

(** A value in a JSON body; [JOther] fits no field. *)
Inductive jvalue := JText (s : str) | JInt (z : Z) | JBool (b : bool) | JNull | JOther.

(** A request: path parameters, query and headers as lists of values (none: absent), the
    body as JSON, [None] when it does not parse. *)
Record request := mk_request {
  q_uri : str -> list str; q_query : str -> list str; q_header : str -> list str;
  q_json : option (str -> option jvalue) }.

(** ** Conversion: gin's [setWithProperType] *)

(** [strconv.ParseBool]. *)
Definition parse_bool (s : str) : option bool :=
  if existsb (str_eqb s) (map s2l ["1"; "t"; "T"; "true"; "TRUE"; "True"]%string) then Some true
  else if existsb (str_eqb s) (map s2l ["0"; "f"; "F"; "false"; "FALSE"; "False"]%string) then Some false
  else None.

(** Whether a signed integer of so many bits holds [z]. *)
Definition fits (bits z : Z) : bool := (- 2 ^ (bits - 1) <=? z) && (z <? 2 ^ (bits - 1)).

(** [strconv.ParseInt(s, 10, bits)]. *)
Definition parse_int (bits : Z) (s : str) : option Z :=
  match atoi s with
  | Some z => if fits bits z then Some z else None
  | None => None
  end.

(** The value of a key: the first one for all types but slices; [None] is an error.
    [dec] tells which texts [json.Unmarshal] takes for a structure. *)
Definition convert (dec : str -> bool) (k : kind) (vs : list str) : option value :=
  let s := hd [] vs in
  match k with
  | KText => Some (VText s)
  | KInt bits => match s with [] => Some (VInt 0) | _ => option_map VInt (parse_int bits s) end
  | KBool => match s with [] => Some (VBool false) | _ => option_map VBool (parse_bool s) end
  | KList => Some (VList vs)
  | KStruct _ => if dec s then Some (VList [s]) else None
  | KIface => None
  end.

(** The zero value. *)
Definition zero (k : kind) : value :=
  match k with
  | KText => VText []
  | KInt _ => VInt 0
  | KBool => VBool false
  | KList | KStruct _ | KIface => VList []
  end.

(** [textproto.CanonicalMIMEHeaderKey]: capitals at the start and after '-'. *)
Definition to_lower_char (c : ascii) : ascii :=
  let n := N_of_ascii c in
  if ((65 <=? n) && (n <=? 90))%N then ascii_of_N (n + 32) else c.
Fixpoint canon_from (up : bool) (s : str) : str :=
  match s with
  | [] => []
  | c :: s' => (if up then to_upper_char c else to_lower_char c) :: canon_from (if ascii_dec c "-" then true else false) s'
  end.
Definition canon (s : str) : str := canon_from true s.

(** The tag of a field for a source. *)
Definition tag (s : source) (f : field) : option str :=
  match s with Uri => f_uri f | Query => f_form f | Header => f_header f | Json => f_json f end.

(** What a source holds under a key. *)
Definition look (q : request) (s : source) (key : str) : list str :=
  match s with
  | Uri => q_uri q key
  | Query => q_query q key
  | Header => q_header q (canon key)
  | Json => []
  end.

(** gin's [tryToSetValue]: the key is the tag or the Go name. *)
Definition key_of (s : source) (f : field) : str := match tag s f with Some t => t | None => f_go f end.

(** gin's [mapping] of one field: absent, an error, a value.  A structure without a key
    of its own is set through the keys of its fields. *)
Inductive found := Absent | Bad | Good (v : value).
Definition find (dec : str -> bool) (q : request) (s : source) (f : field) : found :=
  match look q s (key_of s f) with
  | [] =>
      match f_kind f with
      | KStruct inner =>
          match List.concat (map (look q s) inner) with
          | [] => Absent
          | vs => if forallb dec vs then Good (VList vs) else Bad
          end
      | _ => Absent
      end
  | vs => match convert dec (f_kind f) vs with Some v => Good v | None => Bad end
  end.

(** ** One pass *)

(** gin's [mapping] of the fields in order; the flag is "no error". *)
Fixpoint set_fields (dec : str -> bool) (q : request) (s : source) (fs : list field) (o : list value) : list value * bool :=
  match fs, o with
  | f :: fs', v :: o' =>
      match find dec q s f with
      | Bad => (v :: o', false)
      | Absent => let r := set_fields dec q s fs' o' in (v :: fst r, snd r)
      | Good v' => let r := set_fields dec q s fs' o' in (v' :: fst r, snd r)
      end
  | _, _ => (o, true)
  end.

(** The rules of the tag binding; required is "not the zero value", min of a text is on
    its length. *)
Definition obeys (r : rule) (v : value) : bool :=
  match r, v with
  | Any, _ => true
  | Required, VText s => match s with [] => false | _ => true end
  | Required, VInt z => negb (z =? 0)
  | Required, VBool b => b
  | Required, VList l => match l with [] => false | _ => true end
  | Min n, VText s => n <=? Z.of_nat (List.length s)
  | Min n, VInt z => n <=? z
  | Min n, VBool _ => false
  | Min n, VList l => n <=? Z.of_nat (List.length l)
  end.
Fixpoint validate (fs : list field) (o : list value) : bool :=
  match fs, o with
  | f :: fs', v :: o' => obeys (f_rule f) v && validate fs' o'
  | _, _ => true
  end.

(** [json.Decoder.Decode] of one field: a value of another type is an error, the other
    fields are set all the same. *)
Definition json_field (j : str -> option jvalue) (f : field) (v : value) : value * bool :=
  match j (key_of Json f) with
  | None | Some JNull => (v, true)
  | Some (JText s) => match f_kind f with KText => (VText s, true) | _ => (v, false) end
  | Some (JInt z) => match f_kind f with KInt bits => if fits bits z then (VInt z, true) else (v, false) | _ => (v, false) end
  | Some (JBool b) => match f_kind f with KBool => (VBool b, true) | _ => (v, false) end
  | Some JOther => (v, false)
  end.
Fixpoint json_fields (j : str -> option jvalue) (fs : list field) (o : list value) : list value * bool :=
  match fs, o with
  | f :: fs', v :: o' =>
      let a := json_field j f v in
      let r := json_fields j fs' o' in (fst a :: fst r, snd a && snd r)
  | _, _ => (o, true)
  end.

(** One [ShouldBind...]: set, then validate (gin's binding/form.go, json.go). *)
Definition pass (dec : str -> bool) (fs : list field) (q : request) (s : source) (o : list value) : list value * bool :=
  let r := match s with
           | Json => match q_json q with None => (o, false) | Some j => json_fields j fs o end
           | _ => set_fields dec q s fs o
           end in
  (fst r, snd r && validate fs (fst r)).

(** [BindAll] (binder.go 17-29; objectserver, metaserver binder.go): each binding in turn;
    the error is that of the last one. *)
Definition bind_all (dec : str -> bool) (fs : list field) (q : request) (ss : list source) (o : list value) : list value * bool :=
  fold_left (fun (r : list value * bool) s => pass dec fs q s (fst r)) ss (o, true).

(** ** The structures of the handlers *)

(** A structure: its bindings in order and its fields. *)
Record binder := mk_binder { b_srcs : list source; b_fields : list field }.

(** Binding a request to a structure of zero values. *)
Definition bind (dec : str -> bool) (b : binder) (q : request) : list value * bool :=
  bind_all dec (b_fields b) q (b_srcs b) (map (fun f => zero (f_kind f)) (b_fields b)).

(** Fields by the source of their tag (no code counterpart). *)
Definition f_in (s : source) (go t : string) (k : kind) (r : rule) : field :=
  let tg := Some (s2l t) in
  match s with
  | Uri => mk_field (s2l go) tg None None None k r
  | Query => mk_field (s2l go) None tg None None k r
  | Header => mk_field (s2l go) None None tg None k r
  | Json => mk_field (s2l go) None None None tg k r
  end.
Definition f_plain (go : string) (k : kind) : field := mk_field (s2l go) None None None None k Any.
Definition range_kind : kind := KStruct [s2l "Bytes"%string].

(** apiserver entity/dto.go 23-32, 78-83 (ObjectStrategy is an int8, metadata.go 20). *)
Definition put_req : binder := mk_binder [Uri; Header; Query]
  [ f_in Query "Store" "ss" (KInt 8) Any; f_in Query "Compress" "compress" KBool Any;
    f_in Uri "Name" "name" KText Required; f_in Header "Bucket" "bucket" KText Required;
    f_in Header "Hash" "digest" KText Required; f_plain "Ext" KText; f_plain "Locate" KList; f_plain "Body" KIface ].

(** apiserver entity/dto.go 34-39, 85-89; VerModeLast is 0. *)
Definition get_req : binder := mk_binder [Uri; Header; Query]
  [ f_in Uri "Name" "name" KText Required; f_in Header "Bucket" "bucket" KText Required;
    f_in Query "Version" "version" (KInt 32) (Min 0); f_plain "Range" range_kind ].

(** apiserver entity/dto.go 41-48, 55-60. *)
Definition big_post_req : binder := mk_binder [Header; Query; Uri]
  [ f_in Query "Compress" "compress" KBool Any; f_in Uri "Name" "name" KText Required;
    f_in Header "Bucket" "bucket" KText Required; f_in Header "Hash" "digest" KText Required;
    f_in Header "Size" "size" (KInt 64) Required; f_plain "Ext" KText ].

(** apiserver entity/dto.go 50-53, 62-66. *)
Definition big_put_req : binder := mk_binder [Uri]
  [ f_in Uri "Token" "token" KText Required; f_plain "Range" range_kind ].

(** [MetadataController.Get] (metadata_api.go 28-37; binder.go 8-15). *)
Definition meta_get : binder := mk_binder [Uri; Query; Header]
  [ f_in Uri "Name" "name" KText Any; f_in Header "Bucket" "bucket" KText Required;
    f_in Query "Version" "version" (KInt 32) Any ].

(** [MetadataController.Versions] (metadata_api.go 46-56). *)
Definition meta_versions : binder := mk_binder [Uri; Query; Header]
  [ f_in Query "Page" "page" (KInt 64) Required; f_in Query "PageSize" "page_size" (KInt 64) Required;
    f_in Header "Bucket" "bucket" KText Required; f_in Uri "Name" "name" KText (Min 1) ].

(** The data server's objects (objectserver controller/http/objects/objects_rest.go 18-26). *)
Definition obj_put : binder := mk_binder [Uri; Query]
  [ f_in Uri "Name" "name" KText Any; f_in Query "Compress" "compress" KBool Any ].
(** objects_rest.go 60-70. *)
Definition obj_get : binder := mk_binder [Uri; Query; Header]
  [ f_in Uri "Name" "name" KText Any; f_in Header "Range" "range" KText Any;
    f_in Header "Size" "size" (KInt 64) Required; f_in Query "Compress" "compress" KBool Any ].

(** The data server's temporary pieces (objectserver controller/http/temp/temp_rest.go
    42-47, objectserver entity/dto.go 13-16). *)
Definition temp_post : binder := mk_binder [Header; Uri]
  [ f_in Uri "Name" "name" KText Required; f_in Header "Size" "size" (KInt 64) Required ].
(** temp_rest.go 63-71. *)
Definition temp_put : binder := mk_binder [Uri; Query]
  [ f_in Uri "ID" "name" KText Any; f_in Query "Compress" "compress" KBool Any ].
(** temp_rest.go 109-117. *)
Definition temp_get : binder := mk_binder [Uri; Header]
  [ f_in Uri "Name" "name" KText Required; f_in Header "Size" "size" (KInt 64) (Min 1) ].

(** [VersionController.UpdateLocates] (metaserver controller/http/version_rest.go 123-132;
    metaserver binder.go 8). *)
Definition update_locates : binder := mk_binder [Uri; Json; Query]
  [ f_in Json "Locate" "locate" KText Required; f_in Json "Hash" "hash" KText Required;
    f_in Json "LocateIndex" "locateIndex" (KInt 64) Any ].

(** The admin server's [Download] (adminserver controller/http/object.go 45-54;
    adminserver binder.go 8-15). *)
Definition admin_download : binder := mk_binder [Uri; Query]
  [ f_in Uri "Name" "name" KText Any; f_in Query "Bucket" "bucket" KText Any; f_in Query "Version" "version" (KInt 64) Any ].

(** ** After the bindings *)

(** [GetReq.Bind] (entity/dto.go 85-96): a header Range must convert, and replaces what
    the bindings put into the field. *)
Definition get_bind (dec : str -> bool) (q : request) : option (list value * option (list (Z * Z))) :=
  let r := bind dec get_req q in
  if snd r then
    match hd [] (q_header q (s2l "Range"%string)) with
    | [] => Some (fst r, None)
    | h => match range_convert h with Some l => Some (fst r, Some l) | None => None end
    end
  else None.

(** [BigPutReq.Bind] (entity/dto.go 62-76): the token is unescaped, a header Range is
    required. *)
Definition big_put_bind (dec : str -> bool) (unescape : str -> option str) (q : request) : option (str * list (Z * Z)) :=
  match bind dec big_put_req q with
  | (VText t :: _, true) =>
      match unescape t with
      | None => None
      | Some t' => match range_convert (hd [] (q_header q (s2l "Range"%string))) with Some l => Some (t', l) | None => None end
      end
  | _ => None
  end.
