(** Vocabulary of the cache properties. *)
From Verif Require Import Str_Model Meta_Model Meta_Spec Cache_Model.
From stdpp Require Import gmap.

(** The things that can be read. *)
Inductive ckey := KMeta (id : str) | KVer (id : str) (n : N) | KBkt (name : str).

(** What the database holds. *)
Definition stored (d : db) (k : ckey) : option crec :=
  match k with
  | KMeta id => CMeta <$> d_meta d !! id
  | KVer id n => CVer <$> get_ver id n d
  | KBkt name => CBkt <$> d_bkt d !! name
  end.

(** Reading it, and the answer that shows what the database holds. *)
Definition read_op (k : ckey) : cop :=
  match k with KMeta id => OGetMeta id | KVer id n => OGetVer id n | KBkt name => OGetBkt name end.

Definition current (d : db) (k : ckey) : cans :=
  match k with
  | KMeta id => AnsMeta (d_meta d !! id)
  | KVer id n => AnsVer (get_ver id n d)
  | KBkt name => AnsBkt (d_bkt d !! name)
  end.

(** The text it is cached under. *)
Definition text (k : ckey) : str :=
  match k with KMeta id => meta_key id | KVer id n => ver_key id n | KBkt name => bkt_key name end.

Definition act_key (a : cact) : str := match a with CSet k _ => k | CDel k => k end.

(** No started goroutine has an operation left on it. *)
Definition quiet (s : cst) (k : ckey) : Prop :=
  forall g a, g ∈ cs_pend s -> a ∈ g -> act_key a <> text k.

(** Object ids none of which is another one followed by a dot and a number. *)
Definition separate (P : str -> Prop) : Prop :=
  forall id id' n, P id -> P id' -> id <> vkey id' n.

Definition in_use (P : str -> Prop) (k : ckey) : Prop :=
  match k with KMeta id | KVer id _ => P id | KBkt _ => True end.

(** Versions are stored under their own number, buckets under their own name. *)
Definition named (d : db) : Prop :=
  (forall id n v, get_ver id n d = Some v -> v_seq v = n) /\
  (forall name b, d_bkt d !! name = Some b -> b_name b = name).

(** The object a call is about. *)
Definition call_id (c : call) : option str :=
  match c with
  | AddMetadata id _ | RemoveMetadata id | UpdateMetadata id _ | AddVersion id _
  | MigrateVersion id _ | RemoveVersion id _ | UpdateVersion id _ _ | RemoveVersions id => Some id
  | CreateBucket _ | DeleteBucket _ | UpdateBucket _ => None
  end.

Definition ids_ok (P : str -> Prop) (o : cop) : Prop :=
  match o with
  | ODirect c => forall id, call_id c = Some id -> P id
  | OGetMeta id | OGetVer id _ => P id
  | ORestore d => named d
  | _ => True
  end.

(** Changes of [k] that this step does not tell the cache: writes through the batch
    repositories, changed locations, a restored snapshot, and versions beyond the
    number taken for the last one when an object or all its versions are removed. *)
Definition untold (s : cst) (o : cop) (k : ckey) : Prop :=
  match o, k with
  | OBatch _, _ | OLocate _ _ _ _, _ | ORestore _, _ => True
  | ODirect (RemoveMetadata id), KVer _ n => n = 0%N \/ (last_version_number id (cs_db s) < n)%N
  | ODirect (RemoveVersions id), KVer _ n => (last_version_number id (cs_db s) < n)%N
  | _, _ => False
  end.

(** The step changes only things no goroutine is still busy with; changes the cache is
    not told of are of things not cached. *)
Definition step_ok (P : str -> Prop) (s : cst) (o : cop) : Prop :=
  ids_ok P o /\
  forall k, in_use P k -> stored (cs_db (fst (cstep s o))) k <> stored (cs_db s) k ->
    quiet s k /\ (untold s o k -> cs_cache s !! text k = None).

Fixpoint run_ok (P : str -> Prop) (s : cst) (ops : list cop) : Prop :=
  match ops with
  | [] => True
  | o :: ops' => step_ok P s o /\ run_ok P (fst (cstep s o)) ops'
  end.

(** Every cached version of [id] is the stored one. *)
Definition fresh_versions (c : gmap str crec) (id : str) (d : db) : Prop :=
  forall n r, c !! ver_key id n = Some r -> exists v, r = CVer v /\ get_ver id n d = Some v.
