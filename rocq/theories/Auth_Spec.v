(** Vocabulary of the properties of Auth_Props. *)
From Verif Require Import Str_Model Meta_Model Rpc_Model Auth_Model.
From stdpp Require Import gmap.
Local Open Scope list_scope.

(** Who may pass: everybody if the checks are off or the route is on the white list;
    whom the callback server, asked about this request, answers with 200; who knows the
    administrator's credential. *)
Inductive entitled (cf : aconf) (cb : callback) (k : etcd_read) (q : areq) : Prop :=
| en_off : ac_enable cf = false -> entitled cf cb k q
| en_white w rest : w ∈ ac_white cf -> full_path (aq_route q) = w ++ rest -> entitled cf cb k q
| en_callback t : ac_cb cf = true -> cb_token cf q = Some t -> cb t = Some 200%Z -> entitled cf cb k q
| en_password u p : ac_pw cf = true -> aq_basic q = Some (u, p) -> k = KCred u p -> entitled cf cb k q.

(** An answer that says the request failed. *)
Definition says_failure (ws : list wr) : Prop := (400 <= answered ws < 600)%Z.

(** A callback server that refuses with 4xx or 5xx. *)
Definition refuses_plainly (cb : callback) : Prop :=
  forall t st, cb t = Some st -> st = 200%Z \/ (400 <= st < 600)%Z.

(** Routes whose object is named by the header Bucket and the path. *)
Definition by_header (r : route) : bool :=
  match r with PutObject | GetObject | PostBig | GetMeta | GetVersions => true | _ => false end.
