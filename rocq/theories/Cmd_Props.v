From stdpp Require Import list.
From Verif Require Import Str_Model Str_Proofs Meta_Model Meta_History Migrate_Model Migrate_Spec Migrate_Proofs Group_Model Group_Proofs Cmd_Model Cmd_Spec.
Local Open Scope list_scope.

Local Definition prog : str := s2l "server".

(** ** C152: a command line asks for what it says *)

Local Lemma voter_read v : good_voter v -> voter_arg (voter_text v) = Some v.
Proof.
  destruct v as [[a b] i]. intros (A & B & I). cbn [fst snd] in *. unfold voter_arg, voter_text. cbn [fst snd].
  rewrite split_on_app by exact A. rewrite split_on_app by exact B. rewrite split_on_notin by (apply print_N_notin; reflexivity).
  unfold to_uint64. rewrite parse_print_N. destruct (N.ltb_spec i (2 ^ 64)); [reflexivity|lia].
Qed.

Local Lemma voters_read l : List.Forall good_voter l -> map voter_arg (map voter_text l) = map Some l.
Proof. induction 1 as [|v l G _ IH]; [reflexivity|]. cbn [map]. rewrite voter_read by exact G. rewrite IH. reflexivity. Qed.

Local Lemma services_read l : List.Forall good_service l -> map service_arg (map service_text l) = map Some l.
Proof.
  induction 1 as [|[a b] l (A & B) _ IH]; [reflexivity|]. cbn [map]. rewrite IH. unfold service_arg at 1, service_text at 1.
  cbn [fst snd] in *. rewrite split_on_app by exact A. rewrite split_on_notin by exact B. reflexivity.
Qed.

(** Voters written as [id,host:port,index], services as [id,host:port], ranges with commas between
    them: the server is asked for exactly these. *)
Theorem C152_add : forall host port vs, List.Forall good_voter vs -> vs <> [] ->
  meta_main host (prog :: s2l "raft" :: port :: s2l "add_voter" :: map voter_text vs) =
  Some (Asks (host_port host port) (QAddVoter (map Some vs))).
Proof.
  intros host port vs G N. unfold meta_main, run_line. f_equal.
  transitivity (raft_line host (port :: s2l "add_voter" :: map voter_text vs)); [reflexivity|]. unfold raft_line.
  change (str_eqb (s2l "add_voter") (s2l "add_voter")) with true. cbv iota. destruct vs as [|v vs]; [congruence|].
  cbn [map]. f_equal. f_equal. exact (voters_read (v :: vs) G).
Qed.
Print Assumptions C152_add.

Theorem C152_bootstrap : forall host port vs, List.Forall good_service vs ->
  meta_main host (prog :: s2l "raft" :: port :: s2l "bootstrap" :: map service_text vs) =
  Some (Asks (host_port host port) (QBootstrap (map Some vs))).
Proof.
  intros host port vs G. unfold meta_main, run_line. f_equal.
  transitivity (raft_line host (port :: s2l "bootstrap" :: map service_text vs)); [reflexivity|].
  transitivity (Asks (host_port host port) (QBootstrap (map service_arg (map service_text vs)))); [reflexivity|].
  rewrite services_read by exact G. reflexivity.
Qed.
Print Assumptions C152_bootstrap.

Local Lemma commas_read l : List.Forall plain l -> l <> [] -> split_on ","%char (commas l) = l.
Proof.
  induction 1 as [|x l P _ IH]; [congruence|]. intros _. destruct l as [|y l]; [apply split_on_notin; exact P|].
  change (commas (x :: y :: l)) with (x ++ ","%char :: commas (y :: l)). rewrite split_on_app by exact P. f_equal. apply IH. discriminate.
Qed.

Theorem C152_migrate : forall host port target tport slots, List.Forall plain slots -> slots <> [] ->
  meta_main host [prog; s2l "start-migration"; port; target; tport; commas slots] =
  Some (Asks (host_port host port) (QMigrate target tport slots)).
Proof.
  intros host port target tport slots P N. 
  transitivity (Some (Asks (host_port host port) (QMigrate target tport (split_on ","%char (commas slots))))); [reflexivity|].
  rewrite commas_read by assumption. reflexivity.
Qed.
Print Assumptions C152_migrate.

(** The other questions. *)
Theorem C152_others : forall host port id more,
  meta_main host (prog :: s2l "raft" :: port :: s2l "join_leader" :: id :: more) = Some (Asks (host_port host port) (QJoin id)) /\
  meta_main host (prog :: s2l "raft" :: port :: s2l "applied_index" :: more) = Some (Asks (host_port host port) QApplied) /\
  meta_main host (prog :: s2l "raft" :: port :: s2l "peers" :: more) = Some (Asks (host_port host port) QPeers) /\
  meta_main host (prog :: s2l "raft" :: port :: s2l "leave" :: more) = Some (Asks (host_port host port) QLeave) /\
  meta_main host (prog :: s2l "get-slots" :: port :: more) = Some (Asks (host_port host port) QSlots) /\
  data_main host (prog :: s2l "rpc" :: port :: s2l "join-cluster" :: more) = Some (Asks (host_port host port) QDataJoin) /\
  data_main host (prog :: s2l "rpc" :: port :: s2l "leave-cluster" :: more) = Some (Asks (host_port host port) QDataLeave) /\
  meta_main host (prog :: s2l "app" :: more) = Some (Serves more) /\ data_main host (prog :: s2l "app" :: more) = Some (Serves more) /\
  meta_main host [prog] = Some (Serves []) /\ data_main host [prog] = Some (Serves []).
Proof. intros. do 10 (split; [reflexivity|]). reflexivity. Qed.
Print Assumptions C152_others.

(** A name that is no command, and a command with too little after it, ask nothing. *)
Theorem C152_nothing : forall host name rest,
  (~ List.In name [s2l "app"; s2l "raft"; s2l "start-migration"; s2l "get-slots"] -> meta_main host (prog :: name :: rest) = Some Prints) /\
  (~ List.In name [s2l "app"; s2l "rpc"] -> data_main host (prog :: name :: rest) = Some Prints) /\
  (forall port, meta_main host [prog; s2l "raft"] = Some Prints /\ meta_main host [prog; s2l "raft"; port] = Some Prints /\
    meta_main host [prog; s2l "raft"; port; s2l "add_voter"] = Some Prints /\ meta_main host [prog; s2l "raft"; port; s2l "join_leader"] = Some Prints /\
    forall id, meta_main host [prog; s2l "raft"; port; s2l "demote_voter"; id] = Some Prints) /\
  (List.length rest <> 4 -> meta_main host (prog :: s2l "start-migration" :: rest) = Some Prints) /\
  (forall port, ~ List.In name [s2l "add_voter"; s2l "join_leader"; s2l "applied_index"; s2l "bootstrap"; s2l "peers"; s2l "leave"; s2l "demote_voter"] ->
     meta_main host (prog :: s2l "raft" :: port :: name :: rest) = Some Prints) /\
  (forall port, ~ List.In name [s2l "join-cluster"; s2l "leave-cluster"] -> data_main host (prog :: s2l "rpc" :: port :: name :: rest) = Some Prints) /\
  meta_main host [prog; s2l "get-slots"] = Some Prints /\ data_main host [prog; s2l "rpc"] = Some Prints /\
  (forall port, data_main host [prog; s2l "rpc"; port] = Some Prints).
Proof.
  intros host name rest. split; [|split; [|split; [|split; [|split; [|split; [|split; [reflexivity|split; reflexivity]]]]]]].
  - intros N. unfold meta_main, run_line. f_equal. cbn [command_of].
    destruct (str_eqb_spec (s2l "app") name) as [E|]; [destruct N; left; exact E|].
    destruct (str_eqb_spec (s2l "raft") name) as [E|]; [destruct N; right; left; exact E|].
    destruct (str_eqb_spec (s2l "start-migration") name) as [E|]; [destruct N; right; right; left; exact E|].
    destruct (str_eqb_spec (s2l "get-slots") name) as [E|]; [destruct N; right; right; right; left; exact E|]. reflexivity.
  - intros N. unfold data_main, run_line. f_equal. cbn [command_of].
    destruct (str_eqb_spec (s2l "app") name) as [E|]; [destruct N; left; exact E|].
    destruct (str_eqb_spec (s2l "rpc") name) as [E|]; [destruct N; right; left; exact E|]. reflexivity.
  - intros port. do 4 (split; [reflexivity|]). intros id. reflexivity.
  - intros L. transitivity (Some (migration_line host rest)); [reflexivity|]. f_equal. unfold migration_line.
    destruct rest as [|a [|b [|c [|d [|e r]]]]]; cbn in L; try reflexivity. congruence.
  - intros port N. transitivity (Some (raft_line host (port :: name :: rest))); [reflexivity|]. f_equal. unfold raft_line.
    assert (X : forall t, List.In t [s2l "add_voter"; s2l "join_leader"; s2l "applied_index"; s2l "bootstrap"; s2l "peers"; s2l "leave"; s2l "demote_voter"] ->
      str_eqb name t = false) by (intros t I; destruct (str_eqb_spec name t) as [->|]; [destruct (N I)|reflexivity]).
    rewrite !X by (cbn [List.In]; tauto). reflexivity.
  - intros port N. transitivity (Some (rpc_line host (port :: name :: rest))); [reflexivity|]. f_equal. unfold rpc_line.
    assert (X : forall t, List.In t [s2l "join-cluster"; s2l "leave-cluster"] ->
      str_eqb name t = false) by (intros t I; destruct (str_eqb_spec name t) as [->|]; [destruct (N I)|reflexivity]).
    rewrite !X by (cbn [List.In]; tauto). reflexivity.
Qed.
Print Assumptions C152_nothing.

Local Lemma voter_none t : no_voter t -> voter_arg t = None.
Proof.
  unfold no_voter, voter_arg. destruct (split_on ","%char t) as [|a [|b [|c [|d l]]]]; cbn; try reflexivity. congruence.
Qed.
Local Lemma service_none t : no_service t -> service_arg t = None.
Proof.
  unfold no_service, service_arg. destruct (split_on ","%char t) as [|a [|b [|c l]]]; cbn; try reflexivity. congruence.
Qed.

Local Lemma empty_refused c : List.In ([] : str, [] : str) c -> check_conf c = false.
Proof.
  intros I. unfold check_conf. destruct (forallb _ c) eqn:F; [|rewrite andb_false_r; reflexivity].
  rewrite forallb_forall in F. specialize (F _ I). discriminate F.
Qed.

Local Lemma set_voter_in id addr c : List.In (id, addr) (set_voter id addr c).
Proof.
  induction c as [|v c IH]; [left; reflexivity|]. cbn [set_voter]. destruct (str_eqb v.1 id); [left; reflexivity|right; exact IH].
Qed.

(** Proved: [bootstrap] with anything that is no service forms no group, as the library refuses
    the empty entry. *)
Theorem C152_bootstrap_malformed : forall host port texts t fresh before after id addr nodes, List.In t texts -> no_service t ->
  exists l, meta_main host (prog :: s2l "raft" :: port :: s2l "bootstrap" :: texts) = Some (Asks (host_port host port) (QBootstrap l)) /\
    bootstrap fresh before after id addr (map wire l) nodes = (RSays, None, nodes).
Proof.
  intros host port texts t fresh before after id addr nodes I N. exists (map service_arg texts). split; [reflexivity|].
  assert (J : List.In ([] : str, [] : str) (map wire (map service_arg texts))).
  { apply List.in_map_iff. exists None. split; [reflexivity|]. apply List.in_map_iff. exists t. split; [apply service_none; exact N|exact I]. }
  unfold bootstrap. destruct (map wire (map service_arg texts)) as [|v l] eqn:E; [destruct J|].
  rewrite (empty_refused _ J), andb_false_r. destruct nodes; reflexivity.
Qed.
Print Assumptions C152_bootstrap_malformed.

(** Refuted for [add_voter]: one text is no voter, so the command fails, but the voter before it
    has been added. *)
Theorem C152_malformed_refuted : forall host port v t w m g, good_voter v -> no_voter t ->
  s_on (w_srv w m) = true -> s_leads (w_srv w m) = Some g -> check_conf (set_voter (fst (fst v)) (snd (fst v)) (w_conf w g)) = true ->
  exists q w', meta_main host [prog; s2l "raft"; port; s2l "add_voter"; voter_text v; t] = Some (Asks (host_port host port) q) /\
    told [] w m q = (RSays, w') /\ List.In (fst (fst v), snd (fst v)) (w_conf w' g).
Proof.
  intros host port [[a b] i] t w m g G N On L C. cbn [fst snd] in *.
  exists (QAddVoter [Some (a, b, i); None]), (put_conf w g (set_voter a b (w_conf w g))). split; [|split].
  - transitivity (Some (Asks (host_port host port) (QAddVoter [voter_arg (voter_text (a, b, i)); voter_arg t]))); [reflexivity|].
    rewrite (voter_read _ G), (voter_none _ N). reflexivity.
  - cbn [told map wire_voter]. unfold add_voter. rewrite On, L. cbn [negb add_all fst snd hd tl]. unfold change.
    rewrite C. rewrite (empty_refused (set_voter [] [] _)) by apply set_voter_in. reflexivity.
  - cbn [put_conf w_conf]. rewrite Nat.eqb_refl. apply set_voter_in.
Qed.
Print Assumptions C152_malformed_refuted.

(** Refuted: the index that is to keep a change from being made on another configuration than the
    caller knows has no effect, and one that is no number is taken. *)
Theorem C152_index_refuted : forall host port id i j fails w m,
  exists p q, meta_main host [prog; s2l "raft"; port; s2l "demote_voter"; id; i] = Some (Asks (host_port host port) p) /\
    meta_main host [prog; s2l "raft"; port; s2l "demote_voter"; id; j] = Some (Asks (host_port host port) q) /\
    told fails w m p = told fails w m q.
Proof. intros host port id i j fails w m. exists (QRemove id (to_uint64 i)), (QRemove id (to_uint64 j)). repeat split. Qed.
Print Assumptions C152_index_refuted.

(** Refuted: [demote_voter] takes the server out of the group. *)
Theorem C152_demote_refuted : forall host port id i w m g w', s_leads (w_srv w m) = Some g ->
  (exists q, meta_main host [prog; s2l "raft"; port; s2l "demote_voter"; id; i] = Some (Asks (host_port host port) q) /\ told [] w m q = (ROk, w')) ->
  ~ List.In id (map fst (w_conf w' g)).
Proof.
  intros host port id i w m g w' L (q & E & T). assert (Q : q = QRemove id (to_uint64 i)).
  { change (Some (Asks (host_port host port) (QRemove id (to_uint64 i))) = Some (Asks (host_port host port) q)) in E. congruence. }
  subst q. cbn [told hd] in T. unfold remove_follower in T. rewrite L in T. destruct (s_on (w_srv w m)); [|discriminate T]. cbn [negb] in T.
  unfold change in T. destruct (check_conf (drop_voter id (w_conf w g))); [|discriminate T]. injection T as <-.
  cbn [put_srv put_conf w_conf]. rewrite Nat.eqb_refl. intros I. apply List.in_map_iff in I as (v & Ev & I).
  unfold drop_voter in I. apply List.filter_In in I as [_ F]. rewrite Ev in F. destruct (str_eqb_spec id id); [discriminate F|congruence].
Qed.
Print Assumptions C152_demote_refuted.

Local Definition server_a : server := Server true (s2l "a:1") (Some 0) (s2l "A") [] (s2l "g") (s2l "g") [].
Local Definition w0 : world := World (fun _ => server_a) (fun _ => [(s2l "A", s2l "a:1"); (s2l "B", s2l "b:1")]) (fun _ => true) (fun _ => None).

Example C152_nonvacuous :
  good_voter (s2l "C", s2l "c:1", 7%N) /\ voter_text (s2l "C", s2l "c:1", 7%N) = s2l "C,c:1,7" /\ no_voter (s2l "D,d:1") /\
  check_conf (set_voter (s2l "C") (s2l "c:1") (w_conf w0 0)) = true /\
  (exists q w', meta_main (s2l "h") [prog; s2l "raft"; s2l "80"; s2l "add_voter"; s2l "C,c:1,7"; s2l "D,d:1"] = Some (Asks (s2l "h:80") q) /\
    told [] w0 (s2l "A") q = (RSays, w') /\ List.length (w_conf w' 0) = 3) /\
  no_service (s2l "x") /\
  (exists q w', meta_main (s2l "::1") [prog; s2l "raft"; s2l "80"; s2l "demote_voter"; s2l "B"; s2l "x"] = Some (Asks (s2l "[::1]:80") q) /\
    told [] w0 (s2l "A") q = (ROk, w') /\ w_conf w' 0 = [(s2l "A" : str, s2l "a:1" : str)]) /\
  meta_main (s2l "h") [prog; s2l "start-migration"; s2l "80"; s2l "t"; s2l "81"; s2l "0-5,7-9"] =
    Some (Asks (s2l "h:80") (QMigrate (s2l "t") (s2l "81") [s2l "0-5"; s2l "7-9"])).
Proof.
  assert (P : forall s : str, existsb (fun c => if ascii_dec c ","%char then true else false) s = false -> plain s).
  { intros s E I. apply Bool.not_true_iff_false in E. apply E. apply existsb_exists. exists ","%char. split; [exact I|].
    destruct (ascii_dec ","%char ","%char); [reflexivity|congruence]. }
  split; [split; [apply P; reflexivity|split; [apply P; reflexivity|cbn [snd]; lia]]|]. split; [vm_compute; reflexivity|].
  split; [vm_compute; discriminate|]. split; [vm_compute; reflexivity|].
  split; [eexists; eexists; split; [vm_compute; reflexivity|split; [reflexivity|vm_compute; reflexivity]]|].
  split; [vm_compute; discriminate|].
  split; [eexists; eexists; split; [vm_compute; reflexivity|split; [reflexivity|vm_compute; reflexivity]]|]. vm_compute. reflexivity.
Qed.

(** ** C153: the end of a command tells whether it was done *)

(** Proved: [Run] does not panic, whatever is typed. *)
Theorem C153_no_panic : forall host p args, meta_main host (p :: args) <> None /\ data_main host (p :: args) <> None.
Proof. intros host p [|a args]; split; discriminate. Qed.
Print Assumptions C153_no_panic.

(** Refuted: the status is 0 for every line and every answer, also for lines that are no command. *)
Theorem C153_status_refuted : forall host p args answer,
  exit_status (meta_main host (p :: args)) answer = 0%Z /\ exit_status (data_main host (p :: args)) answer = 0%Z.
Proof. intros host p [|a args] answer; split; reflexivity. Qed.
Print Assumptions C153_status_refuted.

Example C153_nonvacuous : exists q, meta_main (s2l "h") [prog; s2l "raft"; s2l "80"; s2l "add_voter"; s2l "D"] = Some (Asks (s2l "h:80") q) /\
  fst (told [] w0 (s2l "A") q) = RSays /\ meta_main (s2l "h") [prog; s2l "conf.yaml"] = Some Prints.
Proof. eexists. split; [vm_compute; reflexivity|]. split; vm_compute; reflexivity. Qed.

(** ** C154: a data server told to leave has moved everything, or can be told again *)

(** Proved: the answer is true exactly if the server was known, somebody can take its data, its
    services were closed and all planned transfers succeeded; exactly the files transferred are
    gone. *)
Theorem C154_answer : forall peers closes ok n,
  fst (leave_command peers closes ok n) = true <->
  dn_known n = true /\ closes = true /\ exists quotas, deviation_values (dn_cap n) peers false = Some quotas /\
    (forall x, List.In x (sending_plan quotas (dn_files n)) -> ok (fst (fst x)) = true).
Proof.
  intros peers closes ok n. unfold leave_command. destruct (dn_known n); cbn [negb]; [|split; [discriminate|intros (X & _); discriminate]].
  destruct (deviation_values (dn_cap n) peers false) as [quotas|]; [|split; [discriminate|intros (_ & _ & q & X & _); discriminate]].
  destruct closes; cbn [negb fst]; [|split; [discriminate|intros (_ & X & _); discriminate]].
  rewrite forallb_forall. split.
  - intros H. split; [reflexivity|]. split; [reflexivity|]. exists quotas. split; [reflexivity|exact H].
  - intros (_ & _ & q & E & H). injection E as <-. exact H.
Qed.
Print Assumptions C154_answer.

Local Lemma sent_in plan f : sent plan f = true <-> exists t z, List.In (f, t, z) plan.
Proof.
  unfold sent. rewrite existsb_exists. split.
  - intros ([[a t] z] & I & E). cbn [fst] in E. destruct (str_eqb_spec a f) as [->|]; [exists t, z; exact I|discriminate E].
  - intros (t & z & I). exists (f, t, z). split; [exact I|]. cbn [fst]. destruct (str_eqb_spec f f); [reflexivity|congruence].
Qed.

(** Nothing is lost: exactly the files that the plan sends and that were transferred are gone, and
    if the server does not get that far none is. *)
Theorem C154_kept : forall peers closes ok n f,
  (forall quotas, dn_known n = true -> closes = true -> deviation_values (dn_cap n) peers false = Some quotas ->
     List.In f (dn_files (snd (leave_command peers closes ok n))) <->
     List.In f (dn_files n) /\ ~ ((exists t z, List.In (fst f, t, z) (sending_plan quotas (dn_files n))) /\ ok (fst f) = true)) /\
  (dn_known n = false \/ closes = false \/ deviation_values (dn_cap n) peers false = None ->
     dn_files (snd (leave_command peers closes ok n)) = dn_files n).
Proof.
  intros peers closes ok n f. split.
  - intros quotas K C D. unfold leave_command. rewrite K, C, D. cbn [negb snd dn_files]. rewrite List.filter_In, <- sent_in.
    destruct (sent _ (fst f)); destruct (ok (fst f)); cbn [andb negb]; intuition congruence.
  - intros H. unfold leave_command. destruct (dn_known n); cbn [negb]; [|reflexivity].
    destruct (deviation_values (dn_cap n) peers false); [|reflexivity]. destruct closes; [|reflexivity].
    destruct H as [H|[H|H]]; discriminate H.
Qed.
Print Assumptions C154_kept.

(** Wanted: a server told to leave and answering that it did holds nothing.  Proved if its counter
    is not below the sizes of its files and something is stored.  Missing: counters that are
    below, see the refutation and C73. *)
Theorem C154_left_partial : forall peers ok n,
  peers <> [] -> List.Forall (fun kv => (0 <= snd kv)%Z) peers -> (0 < dn_cap n)%Z -> (dn_cap n + sum_of peers < 2 ^ 53)%Z ->
  List.Forall (fun f => (0 < snd f)%Z) (dn_files n) -> (sum_of (dn_files n) <= dn_cap n)%Z ->
  dn_known n = true -> (forall f, ok f = true) ->
  fst (leave_command peers true ok n) = true /\ dn_files (snd (leave_command peers true ok n)) = [].
Proof.
  intros peers ok n Ne Fp C0 C1 Ff Sf K Ok. destruct (leave_plan (dn_cap n) peers Ne Fp C0 C1) as (plan & D & Sp & Q).
  assert (P : plan <> []) by (intros ->; unfold sum_of in Sp; cbn [fold_right] in Sp; lia).
  assert (Cv : map (fun x => (fst (fst x), snd x)) (sending_plan plan (dn_files n)) = dn_files n).
  { apply plan_covers; [exact P|exact Ff| |lia]. apply List.Forall_forall. intros [k q] H. exact (proj1 (Q k q H)). }
  unfold leave_command. rewrite K, D. cbn [negb fst snd dn_files]. split.
  - apply forallb_forall. intros x _. apply Ok.
  - destruct (List.filter _ (dn_files n)) as [|f l] eqn:E; [reflexivity|exfalso].
    assert (I : List.In f (f :: l)) by (left; reflexivity). rewrite <- E in I. apply List.filter_In in I as [I F].
    rewrite Ok, andb_true_r in F. rewrite <- Cv in I. apply List.in_map_iff in I as ([[a t] z] & Ex & I). cbn [fst snd] in Ex. subst f. cbn [fst] in F.
    assert (Sn : sent (sending_plan plan (dn_files n)) a = true) by (apply sent_in; exists t, z; exact I).
    rewrite Sn in F. discriminate F.
Qed.
Print Assumptions C154_left_partial.

(** Refuted: with a counter below the sizes the answer is that it left, and files stay. *)
Theorem C154_short_refuted : exists peers n,
  (forall f, List.In f (dn_files n) -> (0 < snd f)%Z) /\
  fst (leave_command peers true (fun _ => true) n) = true /\ dn_files (snd (leave_command peers true (fun _ => true) n)) <> [].
Proof.
  exists [(s2l "p:1", 0%Z)], (DNode true true 10 [(s2l "x.0", 10%Z); (s2l "y.0", 10%Z)]). split; [|split].
  - intros f [<-|[<-|[]]]; cbn [snd]; lia.
  - vm_compute. reflexivity.
  - vm_compute. discriminate.
Qed.
Print Assumptions C154_short_refuted.

(** Refuted: when a transfer fails, or closing, the services are closed and the entry is gone;
    told again the server only says that it is not registered, and the files stay. *)
Theorem C154_again_refuted : forall peers peers' closes closes' ok ok' n, dn_known n = true ->
  deviation_values (dn_cap n) peers false <> None ->
  let n1 := snd (leave_command peers closes ok n) in
  dn_known n1 = false /\ dn_up n1 = false /\ leave_command peers' closes' ok' n1 = (false, n1).
Proof.
  intros peers peers' closes closes' ok ok' n K D. cbv zeta. unfold leave_command at 1 2 4 5. rewrite K. cbn [negb].
  destruct (deviation_values (dn_cap n) peers false) as [quotas|]; [|congruence].
  destruct closes; cbn [negb snd dn_known dn_up]; (split; [reflexivity|split; reflexivity]).
Qed.
Print Assumptions C154_again_refuted.

(** Refuted: an empty server whose peers are all equally full cannot leave at all. *)
Theorem C154_empty_refuted : forall peers closes ok n v, dn_cap n = 0%Z -> peers <> [] ->
  List.Forall (fun kv => snd kv = v) peers -> (0 <= v)%Z -> (sum_of peers < 2 ^ 53)%Z -> leave_command peers closes ok n = (false, n).
Proof.
  intros peers closes ok n v C Ne F V L. unfold leave_command. destruct (negb (dn_known n)); [reflexivity|].
  assert (D : deviation_values (dn_cap n) peers false = None); [|rewrite D; reflexivity].
  assert (Su : sum_of peers = (v * Z.of_nat (List.length peers))%Z).
  { clear -F. induction F as [|kv l E _ IH]; [cbn; lia|]. rewrite sum_of_cons, IH, E. cbn [List.length]. lia. }
  unfold deviation_values. rewrite C.
  assert (Sz : (0 < Z.of_nat (List.length peers))%Z) by (destruct peers; [congruence|cbn [List.length]; lia]).
  destruct (Z.eqb_spec (Z.of_nat (List.length peers)) 0); [reflexivity|].
  assert (Nn : List.Forall (fun kv => (0 <= snd kv)%Z) peers) by (clear -F V; induction F; constructor; [lia|assumption]).
  rewrite total64_exact by (assumption || lia).
  destruct (Z.eqb_spec (0 + sum_of peers) 0); [reflexivity|].
  assert (A : ceil_div64 (0 + sum_of peers) (Z.of_nat (List.length peers)) = v).
  { pose proof (ceil_div64_exact (0 + sum_of peers) (Z.of_nat (List.length peers))) as H. unfold is_ceiling in H.
    assert (0 <= 0 + sum_of peers < 2 ^ 53)%Z as B by nia. specialize (H B Sz). nia. }
  rewrite A. destruct (List.filter _ (map _ peers)) as [|x l] eqn:E; [reflexivity|exfalso].
  assert (I : List.In x (x :: l)) by (left; reflexivity). rewrite <- E in I. apply List.filter_In in I as [I P].
  apply List.in_map_iff in I as (kv & <- & I). rewrite List.Forall_forall in F. specialize (F kv I). cbn [snd] in P.
  apply Z.ltb_lt in P. lia.
Qed.
Print Assumptions C154_empty_refuted.

(** Refuted: a server told to join is told that it failed while it has joined, if its entry is not
    discovered yet or if no server has more than the average. *)
Theorem C154_join_refuted : forall peers known ok n,
  known = false \/ deviation_values (dn_cap n) peers true = None ->
  fst (join_command peers true known ok n) = false /\ dn_up (snd (join_command peers true known ok n)) = true.
Proof.
  intros peers known ok n [->|D]; unfold join_command; cbn [negb]; [split; reflexivity|].
  destruct known; cbn [negb]; [rewrite D|]; split; reflexivity.
Qed.
Print Assumptions C154_join_refuted.

(** Proved: joining keeps what the server has, and true is answered only by a running one. *)
Theorem C154_join : forall peers opens known ok n,
  dn_files (snd (join_command peers opens known ok n)) = dn_files n /\
  (fst (join_command peers opens known ok n) = true -> dn_up (snd (join_command peers opens known ok n)) = true /\
   dn_known (snd (join_command peers opens known ok n)) = true).
Proof.
  intros peers opens known ok n. unfold join_command. destruct opens; cbn [negb]; [|split; [reflexivity|discriminate]].
  destruct known; cbn [negb]; [|split; [reflexivity|discriminate]].
  destruct (deviation_values (dn_cap n) peers true); (split; [reflexivity|]); [intros _; split; reflexivity|discriminate].
Qed.
Print Assumptions C154_join.

(** What is answered to joining. *)
Theorem C154_join_answer : forall peers opens known ok n,
  fst (join_command peers opens known ok n) = true <->
  opens = true /\ known = true /\ exists asked, deviation_values (dn_cap n) peers true = Some asked /\
    (forall x, List.In x asked -> ok (fst x) = true).
Proof.
  intros peers opens known ok n. unfold join_command. destruct opens; cbn [negb]; [|split; [discriminate|intros (X & _); discriminate]].
  destruct known; cbn [negb]; [|split; [discriminate|intros (_ & X & _); discriminate]].
  destruct (deviation_values (dn_cap n) peers true) as [asked|]; [|split; [discriminate|intros (_ & _ & q & X & _); discriminate]].
  cbn [fst]. rewrite forallb_forall. split.
  - intros H. split; [reflexivity|]. split; [reflexivity|]. exists asked. split; [reflexivity|exact H].
  - intros (_ & _ & q & E & H). injection E as <-. exact H.
Qed.
Print Assumptions C154_join_answer.

Local Definition full : dnode := DNode true true 20 [(s2l "x.0", 12%Z); (s2l "y.0", 8%Z)].
Local Definition two_peers : list (str * Z) := [(s2l "p:1", 4%Z); (s2l "q:1", 6%Z)].

Example C154_nonvacuous :
  deviation_values (dn_cap full) two_peers false = Some [(s2l "p:1", 11%Z); (s2l "q:1", 9%Z)] /\
  leave_command two_peers true (fun _ => true) full = (true, DNode false false 20 []) /\
  leave_command two_peers true (str_eqb (s2l "x.0")) full = (false, DNode false false 20 [(s2l "y.0", 8%Z)]) /\
  leave_command [(s2l "p:1", 4%Z); (s2l "q:1", 4%Z)] true (fun _ => true) (DNode true true 0 []) = (false, DNode true true 0 []) /\
  deviation_values 5 [(s2l "p:1", 5%Z)] true = None /\
  join_command [(s2l "p:1", 50%Z)] true true (fun _ => true) (DNode false false 0 []) = (true, DNode true true 0 []).
Proof. do 5 (split; [vm_compute; reflexivity|]). vm_compute. reflexivity. Qed.
