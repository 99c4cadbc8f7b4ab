(** Vocabulary of the properties of the admin server's listings. *)
From Verif Require Import Str_Model Meta_Model.
From stdpp Require Import gmap sorting.
Local Open Scope list_scope.

(** [srt] sorts by [key]. *)
Definition sorts {A} (key : A -> str) (srt : list A -> list A) : Prop :=
  forall l, Permutation (srt l) l /\ StronglySorted (fun x y => str_ltb (key y) (key x) = false) (srt l).

(** The key of an object in the metadata servers. *)
Definition obj_id (m : metadata) : str := m_bucket m ++ s2l "/"%string ++ m_name m.

(** Records stand under their own keys; no two servers hold the same key. *)
Definition keyed {A} (key : A -> str) (f : db -> gmap str A) (servers : list db) : Prop :=
  forall d k (x : A), d ∈ servers -> f d !! k = Some x -> key x = k.
Definition apart {A} (f : db -> gmap str A) (servers : list db) : Prop :=
  forall i j d1 d2 k, servers !! i = Some d1 -> servers !! j = Some d2 ->
  is_Some (f d1 !! k) -> is_Some (f d2 !! k) -> i = j.

(** [all] is what the servers hold under keys that start with [p], in order. *)
Definition in_order {A} (key : A -> str) (f : db -> gmap str A) (servers : list db) (p : str) (all : list A) : Prop :=
  StronglySorted (fun x y => str_ltb (key x) (key y) = true) all /\
  forall x, x ∈ all <-> exists d, d ∈ servers /\ f d !! key x = Some x /\ exists t, key x = p ++ t.

(** Buckets of characters after the slash, names of characters after the closing
    parenthesis: no "-" and "." in a bucket, no blank, "!" or "(" in a name. *)
Definition plain (m : metadata) : Prop :=
  List.Forall (fun c => (47 < N_of_ascii c)%N) (m_bucket m) /\ List.Forall (fun c => (41 < N_of_ascii c)%N) (m_name m).

(** Every command that writes an object's record writes it under its own key; no slash
    in buckets. *)
Definition own_key (o : hop) : Prop :=
  match o with
  | HCmd c => match rd_meta c with Some m => rd_name c = obj_id m /\ List.Forall (fun x => x <> "/"%char) (m_bucket m) | None => True end
  | _ => True
  end.
