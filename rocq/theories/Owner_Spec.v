(** Specification of slot ownership. *)
From Verif Require Export Owner_Model HashSlot_Spec.
Local Open Scope Z_scope.

(** Group [g] owns slot [s]: one of the range texts recorded for it contains it. *)
Definition owned (kv : etcd) (g : str) (s : Z) : Prop :=
  exists sid slots t a b, In (g, (sid, slots)) kv /\ In t slots /\ range_text t a b /\ a <= s < b.

(** The slots named by a list of texts. *)
Definition named (slots : list str) (s : Z) : Prop :=
  exists t a b, In t slots /\ range_text t a b /\ a <= s < b.

(** One record per group, one group per server, and a table every server accepts. *)
Record tables_ok (sort : sorter) (kv : etcd) (table : list edge) : Prop := {
  to_groups : NoDup (map fst kv);
  to_servers : NoDup (map (fun gi => fst (snd gi)) kv);
  to_table : provider sort kv = Some table }.

(** Nothing goes wrong after the sender has given up its slots. *)
Definition handed_over (f : faults) : Prop :=
  f_crash f = false /\ f_cancel f = false /\ f_timer f = false /\ f_receiver_save f = false.
