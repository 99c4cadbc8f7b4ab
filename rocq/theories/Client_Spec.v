(** Vocabulary of the properties of storing and reading objects. *)
From Verif Require Import Str_Model Meta_Model Meta_Spec Api_Model Client_Model.
From stdpp Require Import gmap.
Local Open Scope list_scope.
Local Notation length := List.length.

(** The upload a request is about, and the layout once it is fixed. *)
Definition t_upload (t : thread) : upload :=
  match t with
  | PLocate u | PUpload u _ | PMeta u _ | PVersion u _ | PDone u _ _
  | BPost u | BPatch u _ | BFinish u _ _ | BMeta u _ _ | BVersion u _ _ | BCommit u _ _ | BDone u _ _ => u
  end.

Definition t_layout (t : thread) : option layout :=
  match t with
  | PLocate _ | BPost _ => None
  | PUpload _ l | PMeta _ l | PVersion _ l | PDone _ l _
  | BPatch _ l | BFinish _ l _ | BMeta _ l _ | BVersion _ l _ | BCommit _ l _ | BDone _ l _ => Some l
  end.

(** The version number a request obtained, the number it answered, and whether it is a
    resumable upload. *)
Definition t_number (t : thread) : option Z :=
  match t with PDone _ _ r | BDone _ _ r => r | BCommit _ _ n => Some n | _ => None end.

Definition t_answered (t : thread) : option Z :=
  match t with PDone _ _ r | BDone _ _ r => r | _ => None end.

Definition t_resumable (t : thread) : bool :=
  match t with PLocate _ | PUpload _ _ | PMeta _ _ | PVersion _ _ | PDone _ _ _ => false | _ => true end.

(** The texts given to SHA-256 for a request. *)
Definition t_texts (t : thread) : list str :=
  u_sent (t_upload t) :: received (t_upload t) ::
  match t_layout t with
  | Some l => [unique_text (u_digest (t_upload t)) (l_strategy l) (l_data l) (l_parity l) (l_compress l)]
  | None => []
  end.

Definition hashed_texts (w : world) : list str := flat_map t_texts (w_threads w).

(** SHA-256 has no collision among the texts of these requests. *)
Definition collision_free (sha : str -> str) (w : world) : Prop :=
  forall x y, x ∈ hashed_texts w -> y ∈ hashed_texts w -> sha x = sha y -> x = y.

(** The client announces the digest and the size of what it sends. *)
Definition honest (sha : str -> str) (u : upload) : Prop :=
  u_digest u = sha (u_sent u) /\ u_size u = length (u_sent u).

Definition started (a : cact) : list upload :=
  match a with CPut u | CBig u => [u] | _ => [] end.

(** Calls other requests may make: everything but writing versions. *)
Definition plain_call (c : call) : Prop :=
  match c with AddVersion _ _ | MigrateVersion _ _ | UpdateVersion _ _ _ => False | _ => True end.

Definition cact_ok (a : cact) : Prop :=
  match a with
  | CStep _ ch => Forall (fun x : str => "."%char ∉ x) (ch_uuids ch)
  | COther c => plain_call c
  | _ => True
  end.

(** The metadata servers give distinct unique ids; uuids have no dot; fewer than 2^31
    steps. *)
Definition run_of (acts : list cact) : Prop :=
  Forall cact_ok acts /\ NoDup (map u_uid (flat_map started acts)) /\
  Forall (fun u => u_uid u <> []) (flat_map started acts) /\ (N.of_nat (length acts) < 2 ^ 31)%N.

Definition no_removal (id : str) (n : N) (acts : list cact) : Prop :=
  Forall (fun a => match a with COther c => ~ removes_version id n c | _ => True end) acts.
