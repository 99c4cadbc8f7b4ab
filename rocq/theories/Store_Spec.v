(** What a data server must do, and the histories for which it does. *)
From Verif Require Import Str_Model Path_Model Path_Spec Reader_Model Store_Model.
Local Notation length := List.length.

Section Spec.
  Context {B : Type}.
  Variable storage : str.
  Variable max_item : nat.
  (** The mount points of the server. *)
  Variable mounts : list str.
  (** The bytes each name stands for: names are content hashes. *)
  Variable content : str -> list B.

  (** A name the router can pass ([/objects/:name] holds no slash), without a
      percent sign, and that is not one of the cache's own keys.  Names in use
      are a hash in hexadecimal, a dot and a shard number. *)
  Definition good_name (n : str) : Prop :=
    ~ In "/"%char n /\ ~ In "%"%char n /\ forall r, n <> locate_prefix ++ r.

  (** Mount points whose paths the index can keep: the storage directory ends
      with a slash, no path has "%2C" in it, and no path stands inside the same
      file's path on another mount point. *)
  Definition good_mounts : Prop :=
    (exists d, storage = d ++ ["/"%char]) /\
    (forall m n, In m mounts -> good_name n -> ~ inside (s2l "%2C") (path_of storage m n)) /\
    (forall m m' n, In m mounts -> In m' mounts -> good_name n ->
       inside (encode_path (path_of storage m n)) (encode_path (path_of storage m' n)) -> m = m').

  (** Events of a well-behaved client and environment: complete uploads of the
      right bytes, one at a time; reads of the whole object, or of more bytes
      than the cache takes. *)
  Definition safe (o : op B) : Prop :=
    match o with
    | Put n m d => good_name n /\ In m mounts /\ d = content n
    | Get n off size => good_name n /\ ((off = 0 /\ size = length (content n)) \/ max_item < size)
    | Head n | Delete n => good_name n
    | Commit m n f => good_name n /\ In m mounts /\ exists z, f = content n ++ z
    | Run _ | Evict _ | Restart => True
    | Drivers l => incl l mounts
    | PutFails _ _ _ | PutBegin _ _ _ | PutWrite _ | PutEnd _ => False
    end.

  (** The event does not name object [n] as a target. *)
  Definition about (n : str) (o : op B) : Prop :=
    match o with
    | Put n' _ _ | PutFails n' _ _ | PutBegin n' _ _ | Get n' _ _ | Head n' | Delete n' | Commit _ n' _ => n' = n
    | _ => False
    end.

  (** Events under which object [n], stored on [m], must stay readable. *)
  Definition keeps (n m : str) (o : op B) : Prop :=
    match o with
    | Delete n' => n' <> n
    | Drivers l => In m l
    | _ => True
    end.
End Spec.
