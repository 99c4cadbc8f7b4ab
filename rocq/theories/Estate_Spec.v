(** Specification of deleting, in words of requests and answers. *)
From Verif Require Import Str_Model Meta_Model Meta_Spec Estate_Model.
From stdpp Require Import gmap.

(** Nothing can be read from a bucket. *)
Definition empty_bucket (bucket : str) (st : estate) : Prop :=
  forall name n, get bucket name n st = None.

(** The bucket an upload names has no slash in it and is not [bucket]. *)
Definition elsewhere (bucket : str) (o : op) : Prop :=
  match o with
  | Put b _ _ _ _ _ => b <> bucket /\ ~ In "/"%char b
  | Manage _ => True
  end.

(** An upload of content with that hash. *)
Definition brings (h : str) (o : op) : Prop :=
  match o with
  | Put _ _ _ v _ _ => v_hash v = h
  | Manage _ => False
  end.

(** The object a request is about: its bucket, a slash and its name. *)
Definition about (bucket name : str) (c : call) : Prop :=
  match c with
  | AddMetadata i _ | RemoveMetadata i | UpdateMetadata i _ | AddVersion i _ | MigrateVersion i _
  | RemoveVersion i _ | UpdateVersion i _ _ | RemoveVersions i => i = bucket ++ ["/"%char] ++ name
  | CreateBucket _ | DeleteBucket _ | UpdateBucket _ => False
  end.

(** No object has a version. *)
Definition no_versions (st : estate) : Prop :=
  forall bucket name n, get bucket name n st = None.
