(** Specification of moving objects and buckets between two metadata servers. *)
From Verif Require Import Str_Model HashSlot_Model Meta_Model Move_Model.
From stdpp Require Import gmap.

(** Equal except for the two times. *)
Definition same_meta (m m' : metadata) : Prop := m_name m' = m_name m /\ m_bucket m' = m_bucket m.
Definition same_bkt (b b' : bucket) : Prop :=
  b_versioning b' = b_versioning b /\ b_readonly b' = b_readonly b /\ b_compress b' = b_compress b /\
  b_strategy b' = b_strategy b /\ b_ds b' = b_ds b /\ b_ps b' = b_ps b /\ b_remains b' = b_remains b /\
  b_name b' = b_name b /\ b_policies b' = b_policies b.

(** The object [key] is in [d'] as it is in [d]. *)
Definition kept (d d' : db) (key : str) : Prop :=
  d_meta d' !! key = d_meta d !! key /\ d_vers d' !! key = d_vers d !! key.
Definition gone (d : db) (key : str) : Prop := d_meta d !! key = None /\ d_vers d !! key = None.

(** The object [key] of [d] is in [d'] with all its versions and numbers, and no others. *)
Definition complete (d d' : db) (key : str) : Prop :=
  exists m m' b b', d_meta d !! key = Some m /\ d_meta d' !! key = Some m' /\ same_meta m m' /\
    d_vers d !! key = Some b /\ d_vers d' !! key = Some b' /\ vb_map b' = vb_map b.

(** The object [key] is not in [d'], or with some of its versions (an earlier
    migration that failed). *)
Definition part_copied (d d' : db) (key : str) : Prop :=
  gone d' key \/
  exists m m' b b', d_meta d !! key = Some m /\ d_meta d' !! key = Some m' /\ same_meta m m' /\
    d_vers d !! key = Some b /\ d_vers d' !! key = Some b' /\ vb_map b' ⊆ vb_map b.

(** What a metadata server's store always satisfies: an object has a version bucket
    exactly when it has metadata, versions lie under their number's key, buckets
    under their name, and no name is empty. *)
Record store_ok (d : db) : Prop := {
  so_dom : forall key, is_Some (d_meta d !! key) <-> is_Some (d_vers d !! key);
  so_keys : forall key b k v, d_vers d !! key = Some b -> vb_map b !! k = Some v -> k = vkey key (v_seq v);
  so_bkts : forall name b, d_bkt d !! name = Some b -> b_name b = name;
  so_meta_name : d_meta d !! ([] : str) = None;
  so_bkt_name : d_bkt d !! ([] : str) = None }.

(** [v] is a version of a moved object. *)
Definition moved_version (sel : str -> Prop) (d : db) (v : version) : Prop :=
  exists key b k, sel key /\ d_vers d !! key = Some b /\ vb_map b !! k = Some v.

(** What the receiver must be like: the moved objects and buckets are not there, or
    left there by an attempt that failed; no index entry bears the unique id of a
    moved version; unique ids are not hashes; neither is empty. *)
Record receivable (sel : str -> Prop) (ds dr : db) : Prop := {
  rc_objs : forall key, sel key -> is_Some (d_meta ds !! key) -> part_copied ds dr key;
  rc_ids : forall v, moved_version sel ds v ->
    v_hash v <> [] /\ v_uid v <> [] /\ uid_exists dr (v_uid v) = false;
  rc_cross : forall v w, moved_version sel ds v -> moved_version sel ds w -> v_uid v <> v_hash w;
  rc_bkts : forall name b, sel name -> d_bkt ds !! name = Some b ->
    d_bkt dr !! name = None \/ exists b', d_bkt dr !! name = Some b' /\ same_bkt b b' }.

(** What a migration of the objects and buckets [sel] from [ds] to [dr] may do,
    [ok] telling whether it reports success. *)
Record moved_right (sel : str -> Prop) (ds dr ds' dr' : db) (ok : bool) : Prop := {
  (* the others stay where they are *)
  mr_others : forall key, ~ sel key -> kept ds ds' key /\ kept dr dr' key;
  mr_other_bkts : forall name, ~ sel name -> d_bkt ds' !! name = d_bkt ds !! name /\ d_bkt dr' !! name = d_bkt dr !! name;
  (* what the sender does not have is not touched on the receiver *)
  mr_absent : forall key, d_meta ds !! key = None -> kept dr dr' key;
  mr_absent_bkt : forall name, d_bkt ds !! name = None -> d_bkt dr' !! name = d_bkt dr !! name;
  (* nothing is lost, whatever happens *)
  mr_objs : forall key, sel key -> kept ds ds' key \/ (gone ds' key /\ complete ds dr' key);
  mr_bkts : forall name, sel name -> d_bkt ds' !! name = d_bkt ds !! name \/
    (d_bkt ds' !! name = None /\ exists b b', d_bkt ds !! name = Some b /\ d_bkt dr' !! name = Some b' /\ same_bkt b b');
  (* after success all of it is on the receiver *)
  mr_success : ok = true -> forall key, sel key -> is_Some (d_meta ds !! key) -> complete ds dr' key;
  mr_success_bkt : ok = true -> forall name b, sel name -> d_bkt ds !! name = Some b ->
    exists b', d_bkt dr' !! name = Some b' /\ same_bkt b b' }.

(** Nothing goes wrong. *)
Definition calm (ev : events) : Prop :=
  (forall k, ev_meta ev k = Answered) /\ (forall k v, ev_ver ev k v = Answered) /\
  (forall k, ev_bkt ev k = Answered) /\ (forall k, ev_del_meta ev k = true) /\ (forall k, ev_del_bkt ev k = true).

(** The bucket cache tells the truth. *)
Definition cache_ok (cache : str -> option bucket) (d : db) : Prop :=
  forall name b, cache name = Some b -> d_bkt d !! name = Some b.

(** The receiver has the object's version [v], or something under its unique id. *)
Definition held (key : str) (v : version) (d : db) : Prop :=
  is_Some (get_ver key (v_seq v) d) \/ uid_exists d (v_uid v) = true.

(** The receiver has the object [key] of [d], each of its versions being [held]. *)
Definition taken (d d' : db) (key : str) : Prop :=
  is_Some (d_meta d' !! key) /\
  forall b k v, d_vers d !! key = Some b -> vb_map b !! k = Some v -> held key v d'.

(** What holds of any migration, whatever was on the receiver: what disappears from
    the sender, or was reported as moved, is on the receiver, except for versions
    with the unique id of another one. *)
Record nothing_dropped (sel : str -> Prop) (ds ds' dr' : db) (ok : bool) : Prop := {
  nd_objs : forall key, is_Some (d_meta ds !! key) -> kept ds ds' key \/ taken ds dr' key;
  nd_bkts : forall name, is_Some (d_bkt ds !! name) -> d_bkt ds' !! name = d_bkt ds !! name \/ is_Some (d_bkt dr' !! name);
  nd_ok : ok = true -> forall key, sel key -> is_Some (d_meta ds !! key) -> taken ds dr' key;
  nd_ok_bkts : ok = true -> forall name, sel name -> is_Some (d_bkt ds !! name) -> is_Some (d_bkt dr' !! name) }.
