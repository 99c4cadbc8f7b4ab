(** Words for the theorems about configurations. *)
From Coq Require Import List NArith Ascii Bool.
From Verif Require Import Str_Model Util_Model Registry_Model Conf_Model.
Import ListNotations.
Local Open Scope list_scope.
Local Open Scope N_scope.

(** The largest unit not above a size. *)
Definition unit_for (d u : N) : Prop :=
  In u [1; 2 ^ 10; 2 ^ 20; 2 ^ 30; 2 ^ 40; 2 ^ 50] /\ u <= d /\ d < 1024 * u.

(** The number of units nearest to a size, the even one of two. *)
Definition nearest (d u q : N) : Prop :=
  2 * d <= (2 * q + 1) * u /\ 2 * q * u <= 2 * d + u /\
  (2 * d = (2 * q + 1) * u \/ 2 * q * u = 2 * d + u -> N.even q = true).

(** Two configurations that differ in secrets only. *)
Definition same_but_secrets (a b : conf) : Prop :=
  cf_sizes a = cf_sizes b /\ cf_rest a = cf_rest b /\ (cf_auth a = None <-> cf_auth b = None).

(** Two servers that are the same to the others and to their disk. *)
Definition same_server (a b : mconf) : Prop :=
  mc_id a = mc_id b /\ mc_path a = mc_path b /\ mc_store a = mc_store b /\ mc_port a = mc_port b /\
  mc_dir a = mc_dir b /\ mc_group a = mc_group b /\ mc_slots a = mc_slots b /\ mc_on a = mc_on b /\ mc_name a = mc_name b /\ mc_ip a = mc_ip b.

(** The environment sets no empty id. *)
Definition sane_env (e : menv) : Prop := me_id e <> Some [].

(** [math.Log] is good enough. *)
Definition good_log (idx : N -> N) : Prop := forall d, 0 < d -> near (idx d) d.

(** A setting: what the environment has, else what the file has, else the default. *)
Definition set_to (e : option str) (f d v : str) : Prop :=
  (forall x, e = Some x -> v = x) /\ (e = None -> f <> [] -> v = f) /\ (e = None -> f = [] -> v = d).
