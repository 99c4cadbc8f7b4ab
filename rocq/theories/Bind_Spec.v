(** What binding a request should do: every field with a tag is what the request holds at
    the place the tag names; a request with an unreadable or forbidden value is refused. *)
From Verif Require Import Str_Model Util_Model Bind_Model.
Local Open Scope Z_scope.
Local Open Scope list_scope.

(** Texts and what they say. *)
Inductive written : kind -> str -> value -> Prop :=
| W_text s : written KText s (VText s)
| W_int0 b : written (KInt b) [] (VInt 0)
| W_int b s z : atoi s = Some z -> - 2 ^ (b - 1) <= z < 2 ^ (b - 1) -> written (KInt b) s (VInt z)
| W_bool0 : written KBool [] (VBool false)
| W_true s : In s (map s2l ["1"; "t"; "T"; "true"; "TRUE"; "True"]%string) -> written KBool s (VBool true)
| W_false s : In s (map s2l ["0"; "f"; "F"; "false"; "FALSE"; "False"]%string) -> written KBool s (VBool false).

(** The value a request gives to a field with a tag; the zero value when it gives none. *)
Inductive meant (q : request) (f : field) : value -> Prop :=
| M_absent s t : tag s f = Some t -> look q s t = [] -> meant q f (zero (f_kind f))
| M_given s t x r v : tag s f = Some t -> look q s t = x :: r -> written (f_kind f) x v -> meant q f v.

(** The rules of the tags. *)
Inductive lawful : rule -> value -> Prop :=
| L_any v : lawful Any v
| L_text c s : lawful Required (VText (c :: s))
| L_int z : z <> 0 -> lawful Required (VInt z)
| L_true : lawful Required (VBool true)
| L_list x l : lawful Required (VList (x :: l))
| L_min n z : n <= z -> lawful (Min n) (VInt z)
| L_length n s : n <= Z.of_nat (List.length s) -> lawful (Min n) (VText s)
| L_count n l : n <= Z.of_nat (List.length l) -> lawful (Min n) (VList l).

(** Fields with a tag. *)
Definition declared (f : field) : Prop := exists s t, tag s f = Some t.

(** A request whose values are readable and allowed. *)
Definition well_formed (b : binder) (q : request) : Prop :=
  forall f, In f (b_fields b) -> declared f -> exists v, meant q f v /\ lawful (f_rule f) v.

(** The source read last. *)
Definition last_src (b : binder) : source := last (b_srcs b) Uri.

(** Nothing in a source bears the Go name of a field that is to come from another source;
    for fields without any tag this is asked of the last source only. *)
Definition clean (b : binder) (q : request) : Prop :=
  forall s f, In s (b_srcs b) -> In f (b_fields b) -> tag s f = None -> declared f \/ s = last_src b ->
  look q s (f_go f) = [] /\
  forall inner k, f_kind f = KStruct inner -> In k inner -> look q s k = [].

(** The value bound to the field of a name. *)
Fixpoint value_of (go : str) (fs : list field) (o : list value) : option value :=
  match fs, o with
  | f :: fs', v :: o' => if str_eqb (f_go f) go then Some v else value_of go fs' o'
  | _, _ => None
  end.
Definition bound (dec : str -> bool) (b : binder) (q : request) (go : string) : option value :=
  value_of (s2l go) (b_fields b) (fst (bind dec b q)).

(** ** The interface of the servers

    Which parameters there are, where they stand, of what kind they are, and what is asked
    of them, written down once more from the point of view of a client. *)
Definition documented : list (binder * list (string * source * string * kind * rule)) := [
  (put_req, [("Store", Query, "ss", KInt 8, Any); ("Compress", Query, "compress", KBool, Any); ("Name", Uri, "name", KText, Required);
             ("Bucket", Header, "bucket", KText, Required); ("Hash", Header, "digest", KText, Required)]);
  (get_req, [("Name", Uri, "name", KText, Required); ("Bucket", Header, "bucket", KText, Required);
             ("Version", Query, "version", KInt 32, Min 0)]);
  (big_post_req, [("Compress", Query, "compress", KBool, Any); ("Name", Uri, "name", KText, Required);
                  ("Bucket", Header, "bucket", KText, Required); ("Hash", Header, "digest", KText, Required);
                  ("Size", Header, "size", KInt 64, Required)]);
  (big_put_req, [("Token", Uri, "token", KText, Required)]);
  (meta_get, [("Name", Uri, "name", KText, Any); ("Bucket", Header, "bucket", KText, Required); ("Version", Query, "version", KInt 32, Any)]);
  (meta_versions, [("Page", Query, "page", KInt 64, Required); ("PageSize", Query, "page_size", KInt 64, Required);
                   ("Bucket", Header, "bucket", KText, Required); ("Name", Uri, "name", KText, Min 1)]);
  (obj_put, [("Name", Uri, "name", KText, Any); ("Compress", Query, "compress", KBool, Any)]);
  (obj_get, [("Name", Uri, "name", KText, Any); ("Range", Header, "range", KText, Any); ("Size", Header, "size", KInt 64, Required);
             ("Compress", Query, "compress", KBool, Any)]);
  (temp_post, [("Name", Uri, "name", KText, Required); ("Size", Header, "size", KInt 64, Required)]);
  (temp_put, [("ID", Uri, "name", KText, Any); ("Compress", Query, "compress", KBool, Any)]);
  (temp_get, [("Name", Uri, "name", KText, Required); ("Size", Header, "size", KInt 64, Min 1)]);
  (update_locates, [("Locate", Json, "locate", KText, Required); ("Hash", Json, "hash", KText, Required); ("LocateIndex", Json, "locateIndex", KInt 64, Any)]);
  (admin_download, [("Name", Uri, "name", KText, Any); ("Bucket", Query, "bucket", KText, Any); ("Version", Query, "version", KInt 64, Any)])
]%string.

(** The value standing at a place: the zero value when there is nothing. *)
Definition stands (q : request) (s : source) (key : string) (k : kind) (v : value) : Prop :=
  (look q s (s2l key) = [] /\ v = zero k) \/ exists x r, look q s (s2l key) = x :: r /\ written k x v.
