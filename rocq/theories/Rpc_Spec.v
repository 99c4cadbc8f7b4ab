(** Vocabulary of the properties of Rpc_Props. *)
From Verif Require Import Str_Model Meta_Model Meta_Spec Rpc_Model.
From stdpp Require Import gmap.
Local Open Scope list_scope.
Local Notation length := List.length.

(** A number that a signed type of [bits] bits holds. *)
Definition fits (bits z : Z) : Prop := (- 2 ^ (bits - 1) <= z < 2 ^ (bits - 1))%Z.

(** A version whose numbers fit the message and whose required fields are set. *)
Record good_version (b : eversion) : Prop := mk_good_version {
  gv_strategy : fits 8 (ev_strategy b) /\ ev_strategy b <> 0%Z;
  gv_ds : fits 32 (ev_ds b) /\ ev_ds b <> 0%Z;
  gv_ps : fits 32 (ev_ps b);
  gv_shard : ev_shard b <> 0%Z;
  gv_size : ev_size b <> 0%Z;
  gv_hash : ev_hash b <> [];
  gv_locate : ev_locate b <> [] }.

(** The version as it is to be read back: with its number and the time of saving. *)
Definition saved_version (n now : Z) (b : eversion) : eversion :=
  mk_eversion (ev_compress b) (ev_hash b) (ev_strategy b) n (ev_size b) now (ev_ds b) (ev_ps b) (ev_shard b) (ev_locate b).

(** Some required field is missing from what is sent. *)
Definition incomplete (b : eversion) : Prop :=
  ev_strategy b = 0%Z \/ ev_ds b = 0%Z \/ ev_shard b = 0%Z \/ ev_size b = 0%Z \/ ev_hash b = [] \/ ev_locate b = [].

(** A bucket whose numbers fit the message. *)
Record good_bucket (b : ebucket) : Prop := mk_good_bucket {
  gb_strategy : fits 8 (eb_strategy b);
  gb_ds : fits 32 (eb_ds b);
  gb_ps : fits 32 (eb_ps b);
  gb_remains : fits 32 (eb_remains b);
  gb_name : eb_name b <> [] }.

(** The bucket as it is to be read back. *)
Definition saved_bucket (now : Z) (b : ebucket) : ebucket :=
  mk_ebucket (eb_versioning b) (eb_readonly b) (eb_compress b) (eb_strategy b) (eb_ds b) (eb_ps b) (eb_remains b)
             now now (eb_name b) (eb_policies b).

(** Two databases answer the same about every version but number [n] of [id]. *)
Definition same_but_version (id : str) (n : Z) (d d' : db) : Prop :=
  forall id' n', (0 < n')%Z -> id' <> id \/ n' <> n -> c_get_version id' n' d' = c_get_version id' n' d.

(** The status class of an answer: 2 success, 4 the client's fault, 5 the server's. *)
Definition class (st : Z) : Z := (st / 100)%Z.
