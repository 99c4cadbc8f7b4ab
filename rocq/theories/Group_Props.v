(** Theorems about groups of metadata servers (C135-C139). *)
From stdpp Require Import list.
From Verif Require Import Str_Model Str_Proofs Meta_Model Group_Model Group_Spec Group_Proofs.
Local Open Scope list_scope.

(** ** Servers for the examples *)

(** Server [m] leads group 0 ("a") with [f], server [n] leads group 1 ("b") alone; [x] is
    new. *)
Definition ex_world : world :=
  World
    (fun id =>
       if str_eqb id (s2l "m"%string) then
         Server true (s2l "h1:80"%string) (Some 0) (s2l "m"%string) [s2l "m,h1:80"%string; s2l "f,h2:80"%string] (s2l "a"%string) (s2l "a"%string) [s2l "0-100"%string]
       else if str_eqb id (s2l "n"%string) then
         Server true (s2l "h3:80"%string) (Some 1) (s2l "n"%string) [s2l "n,h3:80"%string] (s2l "b"%string) (s2l "b"%string) [s2l "100-200"%string]
       else if str_eqb id (s2l "f"%string) then
         Server true (s2l "h2:80"%string) None (s2l "m"%string) [s2l "m,h1:80"%string; s2l "f,h2:80"%string] (s2l "a"%string) (s2l "a"%string) [s2l "0-100"%string]
       else Server true (s2l "h4:80"%string) None [] [] (s2l "raft"%string) (s2l "raft"%string) [s2l "0-16384"%string])
    (fun g => if g =? 0 then [(s2l "m"%string, s2l "h1:80"%string); (s2l "f"%string, s2l "h2:80"%string)] else [(s2l "n"%string, s2l "h3:80"%string)])
    (fun _ => true)
    (fun id => if str_eqb id (s2l "a"%string) then Some [s2l "0-100"%string]
               else if str_eqb id (s2l "b"%string) then Some [s2l "100-200"%string] else None).

Definition no_mishap : mishap := Mishap false false false false false.

(** ** C135: the commands change the group they are meant for *)

(** A leader that reports success for new voters has all of them in its group, each under
    the address given and no other; everyone else stays; nothing else changes. *)
Theorem C135_add : forall fails w m voters w',
  sound (w_conf w (match s_leads (w_srv w m) with Some g => g | None => 0 end)) -> List.NoDup (map fst voters) ->
  add_voter fails w m voters = (ROk, w') ->
  exists g, s_leads (w_srv w m) = Some g /\
    (forall id addr, In (id, addr) voters -> forall a, voter_of w' g id a <-> a = addr) /\
    (forall id a, ~ In id (map fst voters) -> voter_of w' g id a <-> voter_of w g id a) /\
    sound (w_conf w' g) /\ else_same g m w w'.
Proof.
  intros fails w m voters w' S D H. apply add_voter_ok in H as (g & _ & G & _ & A & ->).
  rewrite G in S. exists g. split; [exact G|]. unfold voter_of. cbn [put_srv w_conf]. rewrite put_conf_same.
  split.
  { intros id addr I a. split.
    - intros J. eapply add_all_own; eassumption.
    - intros ->. apply add_all_ok; assumption. }
  split; [intros; apply add_all_keeps; assumption|]. split; [apply add_all_sound, S|].
  split; [intros g' X; apply put_conf_other, X|].
  split; [intros x X; rewrite (put_srv_other _ m _ x X); reflexivity|]. split; reflexivity.
Qed.

Example C135_add_case :
  (add_voter [] ex_world (s2l "n"%string) [(s2l "x"%string, s2l "h4:80"%string)]).1 = ROk /\
  w_conf (add_voter [] ex_world (s2l "n"%string) [(s2l "x"%string, s2l "h4:80"%string)]).2 1 =
    [(s2l "n"%string, s2l "h3:80"%string); (s2l "x"%string, s2l "h4:80"%string)].
Proof. vm_compute. split; reflexivity. Qed.

(** Whatever the answer, nobody who was in a group leaves it by an addition. *)
Theorem C135_add_stays : forall fails w m voters r w' g id, add_voter fails w m voters = (r, w') ->
  member w g id -> member w' g id.
Proof.
  intros fails w m voters r w' g id H (a & I).
  assert (K : forall c : list (str * str), (exists a : str, In (id, a) c) <-> In id (map fst c)).
  { intros c. rewrite in_map_iff. split.
    - intros (b & J). exists (id, b). auto.
    - intros ([y b] & <- & J). exists b. exact J. }
  unfold member, voter_of. apply K. assert (I' : In id (map fst (w_conf w g))) by (apply K; eauto).
  unfold add_voter in H. destruct (s_on (w_srv w m)); cbn [negb] in H; [|injection H as <- <-; exact I'].
  destruct (s_leads (w_srv w m)) as [h|]; [|injection H as <- <-; exact I'].
  destruct voters as [|v vs]; [injection H as <- <-; exact I'|].
  pose proof (add_all_stay (v :: vs) fails (w_conf w h) id) as Q.
  destruct (add_all fails (v :: vs) (w_conf w h)) as [c ok].
  assert (E : w_conf w' = w_conf (put_conf w h c)) by (destruct ok; injection H as <- <-; reflexivity).
  rewrite E. cbn. destruct (Nat.eqb_spec g h) as [->|]; [|exact I']. apply Q, I'.
Qed.

(** A leader that reports a removal has not got the server in its group any more and has
    everyone else in it. *)
Theorem C135_remove : forall fail w m id w', remove_follower fail w m id = (ROk, w') ->
  exists g, s_leads (w_srv w m) = Some g /\
    (forall x a, voter_of w' g x a <-> voter_of w g x a /\ x <> id) /\
    sound (w_conf w' g) /\ else_same g m w w' /\
    (id <> m -> s_leads (w_srv w' m) = Some g) /\ s_slots (w_srv w' m) = s_slots (w_srv w m).
Proof.
  intros fail w m id w' H. apply remove_follower_ok in H as (g & _ & G & S & ->).
  exists g. split; [exact G|]. unfold voter_of. cbn [put_srv w_conf]. rewrite put_conf_same.
  split; [intros; apply drop_voter_in|]. split; [exact S|].
  split.
  { split; [intros g' X; apply put_conf_other, X|].
    split; [intros x X; rewrite (put_srv_other _ m _ x X); reflexivity|]. split; reflexivity. }
  rewrite put_srv_same. cbv zeta. split.
  - intros X. destruct (str_eqb_spec id m); [contradiction|]. exact G.
  - destruct (str_eqb id m); reflexivity.
Qed.

Example C135_remove_case :
  (remove_follower false ex_world (s2l "m"%string) (s2l "f"%string)).1 = ROk /\
  w_conf (remove_follower false ex_world (s2l "m"%string) (s2l "f"%string)).2 0 = [(s2l "m"%string, s2l "h1:80"%string)].
Proof. vm_compute. split; reflexivity. Qed.

(** A removal that fails changes nothing. *)
Theorem C135_remove_failed : forall fail w m id r w', remove_follower fail w m id = (r, w') -> r <> ROk -> w' = w.
Proof. intros fail w m id r w' H N1. eapply remove_follower_not; eassumption. Qed.

Example C135_remove_failed_case : remove_follower false ex_world (s2l "n"%string) (s2l "n"%string) = (RErr, ex_world).
Proof. reflexivity. Qed.

(** Only a leader with raft switched on adds or removes anybody. *)
Theorem C135_leaders_only : forall fails fail w m voters id,
  s_on (w_srv w m) = false \/ s_leads (w_srv w m) = None ->
  add_voter fails w m voters = (RErr, w) /\ remove_follower fail w m id = (RErr, w).
Proof.
  intros fails fail w m voters id H. unfold add_voter, remove_follower.
  destruct H as [E|E]; rewrite E; [split; reflexivity|]. destruct (s_on (w_srv w m)); split; reflexivity.
Qed.

Example C135_leaders_only_case : s_leads (w_srv ex_world (s2l "f"%string)) = None.
Proof. reflexivity. Qed.

(** No command leaves a group without a member, or with a member or an address twice. *)
Theorem C135_sound : forall w, all_sound w ->
  (forall fails m voters, all_sound (add_voter fails w m voters).2) /\
  (forall fail m id, all_sound (remove_follower fail w m id).2) /\
  (forall fail id, all_sound (leave fail w id).2) /\
  (forall p id m, all_sound (join p w id m).2).
Proof.
  intros w H. split; [|split; [|split]]; intros;
    [apply add_voter_sound|apply remove_follower_sound|apply leave_sound|apply join_sound]; exact H.
Qed.

Example C135_sound_case : all_sound ex_world.
Proof.
  intros g. apply check_conf_iff. cbn. destruct (g =? 0); vm_compute; reflexivity.
Qed.

(** Refused, and yet half done: of two voters one is added though the answer is a failure. *)
Theorem C135_half_refuted : exists w m voters w' g id,
  add_voter [] w m voters = (RSays, w') /\ ~ member w g id /\ member w' g id.
Proof.
  exists ex_world, (s2l "n"%string), [(s2l "x"%string, s2l "h4:80"%string); ([], [])],
    (add_voter [] ex_world (s2l "n"%string) [(s2l "x"%string, s2l "h4:80"%string); ([], [])]).2, 1, (s2l "x"%string).
  split; [vm_compute; reflexivity|]. split.
  - intros (a & [E|[]]). vm_compute in E. discriminate.
  - exists (s2l "h4:80"%string). right. left. reflexivity.
Qed.

(** The others of a group: everyone but the server asked. *)
Theorem C135_peers : forall w id g x, s_on (w_srv w id) = true ->
  In x (peers w id g) <-> member w g x /\ x <> id.
Proof.
  intros w id g x On. unfold peers, member, voter_of. rewrite On, filter_In, in_map_iff.
  assert (E : negb (str_eqb x id) = true <-> x <> id) by (destruct (str_eqb_spec x id); cbn; intuition congruence).
  rewrite E. split.
  - intros (([y a] & <- & I) & N1). split; [exists a; exact I|exact N1].
  - intros ((a & I) & N1). split; [exists (x, a); auto|exact N1].
Qed.

Example C135_peers_case : peers ex_world (s2l "m"%string) 0 = [s2l "f"%string].
Proof. vm_compute. reflexivity. Qed.

(** ** C136: the list of nodes in the configuration follows the group *)

(** It does not: no addition is ever written down. *)
Theorem C136_add_refuted : forall fails w m voters w' id, add_voter fails w m voters = (ROk, w') ->
  List.NoDup (map fst voters) -> In id (map fst voters) -> ~ listed (s_nodes (w_srv w m)) id ->
  (exists g, s_leads (w_srv w' m) = Some g /\ member w' g id) /\ ~ listed (s_nodes (w_srv w' m)) id.
Proof.
  intros fails w m voters w' id H D I N1. apply add_voter_ok in H as (g & _ & G & _ & A & ->).
  rewrite put_srv_same, with_nodes_own. split; [|exact N1].
  exists g. split; [exact G|]. apply in_map_iff in I as ([y a] & <- & I). exists a.
  unfold voter_of. cbn [put_srv w_conf]. rewrite put_conf_same. apply add_all_ok; assumption.
Qed.

Example C136_add_refuted_case :
  (add_voter [] ex_world (s2l "n"%string) [(s2l "x"%string, s2l "h4:80"%string)]).1 = ROk /\
  s_nodes (w_srv (add_voter [] ex_world (s2l "n"%string) [(s2l "x"%string, s2l "h4:80"%string)]).2 (s2l "n"%string)) = [s2l "n,h3:80"%string].
Proof. vm_compute. split; reflexivity. Qed.

(** A removal takes the node off the list, unless it is the first: the rest stays, in
    another order. *)
(** Partial.  Full statement: After a reported addition the new servers are on the leader's list of
    nodes, after a reported removal the removed server is not and all others are.  It fails in
    general: [C136_add_refuted], [C136_first_refuted].  Refuted for every case: an added server is
    never written down, the first server is never taken off. *)
Theorem C136_remove_partial : forall fail w m id w' n0 a n b,
  remove_follower fail w m id = (ROk, w') ->
  s_nodes (w_srv w m) = n0 :: a ++ n :: b ->
  ~ listed (n0 :: a ++ b) id -> listed [n] id ->
  s_nodes (w_srv w' m) ≡ₚ n0 :: a ++ b /\ ~ listed (s_nodes (w_srv w' m)) id.
Proof.
  intros fail w m id w' n0 a n b H E N1 L.
  assert (R : s_nodes (w_srv w' m) = a ++ n0 :: b).
  { apply remove_follower_ok in H as (g & _ & _ & _ & ->). rewrite put_srv_same. cbv zeta.
    assert (Q : remove_node id (s_nodes (w_srv w m)) = a ++ n0 :: b).
    { rewrite E. apply not_listed_iff in N1. inversion N1 as [|? ? N0 N2]; subst.
      apply List.Forall_app in N2 as (N2 & _).
      apply remove_node_cut; [assumption..|].
      apply listed_iff in L as (n' & [<-|[]] & P). exact P. }
    rewrite <- Q. destruct (str_eqb id m); reflexivity. }
  rewrite R. assert (P : a ++ n0 :: b ≡ₚ n0 :: a ++ b) by (symmetry; apply Permutation_middle).
  split; [exact P|]. intros (x & I). apply N1. exists x.
  eapply Permutation_in; [exact P|exact I].
Qed.

Example C136_remove_case :
  s_nodes (w_srv (remove_follower false ex_world (s2l "m"%string) (s2l "f"%string)).2 (s2l "m"%string)) = [s2l "m,h1:80"%string].
Proof. vm_compute. reflexivity. Qed.

(** The first node of the list is never taken off: the removed server stays on it. *)
Theorem C136_first_refuted : forall fail w m id w' n l,
  remove_follower fail w m id = (ROk, w') -> s_nodes (w_srv w m) = n :: l -> listed [n] id ->
  s_nodes (w_srv w' m) = n :: l /\ exists g, s_leads (w_srv w m) = Some g /\ ~ member w' g id.
Proof.
  intros fail w m id w' n l H E L.
  destruct (C135_remove _ _ _ _ _ H) as (g & G & V & _).
  apply remove_follower_ok in H as (g2 & _ & _ & _ & ->). split.
  - rewrite put_srv_same. cbv zeta.
    assert (Q : remove_node id (s_nodes (w_srv w m)) = n :: l).
    { rewrite E. apply remove_node_first. apply listed_iff in L as (n' & [<-|[]] & P). exact P. }
    rewrite <- Q. destruct (str_eqb id m); reflexivity.
  - exists g. split; [exact G|]. intros (a & I). apply V in I as (_ & X). congruence.
Qed.

Example C136_first_refuted_case :
  (remove_follower false ex_world (s2l "m"%string) (s2l "m"%string)).1 = ROk /\
  s_nodes (w_srv (remove_follower false ex_world (s2l "m"%string) (s2l "m"%string)).2 (s2l "m"%string)) = [s2l "m,h1:80"%string; s2l "f,h2:80"%string].
Proof. vm_compute. split; reflexivity. Qed.

(** ** C137: a server that joins a group belongs to it *)

(** After a successful join the server is a voter of the other leader's group, under its
    own address and no other, and knows the group's id, nodes and slots as its own;
    nobody else in any group is touched. *)
Theorem C137_joins : forall p w id m w', p_leads p = false -> s_leader (w_srv w id) <> m ->
  join p w id m = (ROk, w') ->
  exists g, s_leads (w_srv w m) = Some g /\ w_known w m = true /\ takes w w' id m /\ sound (w_conf w' g) /\
    voter_of w' g id (s_addr (w_srv w id)) /\
    (forall x a, x <> id -> voter_of w' g x a <-> voter_of w g x a) /\
    (forall g', g' <> g -> w_conf w' g' = w_conf w g') /\
    w_known w' = w_known w /\ w_etcd w' = w_etcd w /\
    (forall x, x <> id -> x <> m -> w_srv w' x = w_srv w x).
Proof.
  intros p w id m w' L N1 H. apply join_ok in H as (g & G & _ & K & T & S & V & _ & O & C & W & E & X & _); [|assumption..].
  exists g. repeat split; try assumption; try apply S; apply T || apply O; assumption.
Qed.

Example C137_joins_case :
  (join no_mishap ex_world (s2l "x"%string) (s2l "n"%string)).1 = ROk /\
  s_store (w_srv (join no_mishap ex_world (s2l "x"%string) (s2l "n"%string)).2 (s2l "x"%string)) = s2l "b"%string /\
  s_slots (w_srv (join no_mishap ex_world (s2l "x"%string) (s2l "n"%string)).2 (s2l "x"%string)) = [s2l "100-200"%string].
Proof. vm_compute. repeat split. Qed.

(** Joining the leader it already has only renews what the server remembers. *)
Theorem C137_again : forall p w id m w', p_leads p = false -> s_leader (w_srv w id) = m -> m <> id ->
  join p w id m = (ROk, w') ->
  takes w w' id m /\ w_conf w' = w_conf w /\ w_known w' = w_known w /\ w_etcd w' = w_etcd w /\
  (forall x, x <> id -> w_srv w' x = w_srv w x).
Proof. exact join_again. Qed.

Example C137_again_case :
  (join no_mishap ex_world (s2l "f"%string) (s2l "m"%string)).1 = ROk.
Proof. vm_compute. reflexivity. Qed.

(** A leader, a server without raft and an unknown leader: refused, nothing changed. *)
Theorem C137_refused : forall p w id m,
  s_on (w_srv w id) = false \/ s_leads (w_srv w id) <> None \/ w_known w m = false ->
  join p w id m = (RErr, w).
Proof.
  intros p w id m H. unfold join. destruct (s_on (w_srv w id)); cbn [negb]; [|reflexivity].
  destruct (s_leads (w_srv w id)) as [g|]; [reflexivity|].
  destruct H as [H|[H|H]]; [discriminate|congruence|]. rewrite H. reflexivity.
Qed.

Example C137_refused_case : s_leads (w_srv ex_world (s2l "n"%string)) <> None.
Proof. discriminate. Qed.

(** Servers stay at home: the slots a server looks up are those of its group, whatever
    commands it and the others get. *)
Theorem C137_home : forall w, (forall x, at_home (w_srv w x)) ->
  (forall fails m voters x, at_home (w_srv (add_voter fails w m voters).2 x)) /\
  (forall fail m id x, at_home (w_srv (remove_follower fail w m id).2 x)) /\
  (forall fail id x, at_home (w_srv (leave fail w id).2 x)) /\
  (forall p id m x, p_leads p = false -> at_home (w_srv (join p w id m).2 x)).
Proof.
  intros w H. split; [|split; [|split]]; intros;
    [apply add_voter_home|apply remove_follower_home|apply leave_home|apply join_home]; assumption.
Qed.

(** And a restart finds them there. *)
Theorem C137_restart : forall id s, s_on s = true -> at_home s ->
  s_store (restart id s) = s_store s /\ s_group (restart id s) = s_group s /\
  s_nodes (restart id s) = s_nodes s /\ s_slots (restart id s) = s_slots s /\ at_home (restart id s).
Proof.
  intros id s On H. unfold at_home, restart. cbn. rewrite On. rewrite (H On). repeat split.
Qed.

Example C137_home_case : forall x, at_home (w_srv ex_world x).
Proof. intros x. unfold at_home, ex_world. cbn. repeat destruct (str_eqb x _); reflexivity. Qed.

(** It does not leave the group it was in: whoever joins another leader is then in both. *)
Theorem C137_both_refuted : forall p w id m w' g g', p_leads p = false ->
  s_leader (w_srv w id) <> m -> s_leads (w_srv w m) = Some g -> g' <> g -> member w g' id ->
  join p w id m = (ROk, w') -> member w' g id /\ member w' g' id.
Proof.
  intros p w id m w' g g' L N1 G N2 (a & M) H.
  apply C137_joins in H as (h & Gh & _ & _ & _ & V & _ & C & _); [|assumption..].
  rewrite G in Gh. injection Gh as <-. split; [eexists; exact V|].
  exists a. unfold voter_of. rewrite (C g' N2). exact M.
Qed.

Example C137_both_case :
  (join no_mishap ex_world (s2l "f"%string) (s2l "n"%string)).1 = ROk /\
  w_conf (join no_mishap ex_world (s2l "f"%string) (s2l "n"%string)).2 0 =
    [(s2l "m"%string, s2l "h1:80"%string); (s2l "f"%string, s2l "h2:80"%string)] /\
  w_conf (join no_mishap ex_world (s2l "f"%string) (s2l "n"%string)).2 1 =
    [(s2l "n"%string, s2l "h3:80"%string); (s2l "f"%string, s2l "h2:80"%string)].
Proof. vm_compute. repeat split. Qed.

(** Nor does it always take the slots of the group: if etcd has none for it, the server
    keeps those it had. *)
Theorem C137_slots_refuted : forall p w id m w', p_leads p = false -> s_leader (w_srv w id) <> m ->
  w_etcd w (s_group (w_srv w m)) = None -> join p w id m = (ROk, w') ->
  s_slots (w_srv w' id) = s_slots (w_srv w id) /\ s_store (w_srv w' id) = s_group (w_srv w m).
Proof.
  intros p w id m w' L N1 E H. apply C137_joins in H as (g & _ & _ & T & _); [|assumption..].
  destruct T as (_ & _ & T1 & T2 & _). rewrite E in T2. auto.
Qed.

Example C137_slots_case :
  (join no_mishap (put_etcd ex_world (s2l "b"%string) None) (s2l "f"%string) (s2l "n"%string)).1 = ROk /\
  s_slots (w_srv (join no_mishap (put_etcd ex_world (s2l "b"%string) None) (s2l "f"%string) (s2l "n"%string)).2 (s2l "f"%string)) = [s2l "0-100"%string].
Proof. vm_compute. split; reflexivity. Qed.

(** A join that fails may have happened: if only the question for the configuration fails,
    the server is in the group and does not know. *)
Theorem C137_failed_refuted : exists p w id m w' g,
  join p w id m = (RSays, w') /\ ~ member w g id /\ member w' g id /\ w_srv w' id = w_srv w id.
Proof.
  exists (Mishap false false true false false), ex_world, (s2l "x"%string), (s2l "n"%string),
    (join (Mishap false false true false false) ex_world (s2l "x"%string) (s2l "n"%string)).2, 1.
  split; [reflexivity|]. split.
  - intros (a & [E|[]]). vm_compute in E. discriminate.
  - split; [exists (s2l "h4:80"%string); right; left; reflexivity|reflexivity].
Qed.

(** A server that becomes a leader meanwhile writes its own slots over those of the group. *)
Theorem C137_overwrites_refuted : forall p w id group nodes w', p_leads p = true ->
  update_conf (p_leads p) (p_etcd p) w id group nodes = (ROk, w') ->
  exists l, w_etcd w' group = Some l /\
    l = match w_etcd w (s_store (w_srv w id)) with Some o => o | None => s_slots (w_srv w id) end /\
    (s_store (w_srv w id) <> group -> w_etcd w' (s_store (w_srv w id)) = None).
Proof.
  intros p w id group nodes w' L H. rewrite L in H. unfold update_conf in H. destruct (p_etcd p); [discriminate|].
  unfold get_slots in H. rewrite put_srv_same in H. cbn [put_srv w_etcd with_group s_store s_slots] in H.
  rewrite str_eqb_refl in H.
  exists (match w_etcd w (s_store (w_srv w id)) with Some o => o | None => s_slots (w_srv w id) end).
  assert (E : w' = put_etcd (put_srv (put_etcd (put_srv w id (with_group (w_srv w id) group nodes)) (s_store (w_srv w id)) None) id
    (with_slots (with_store (with_group (w_srv w id) group nodes) group)
       (match w_etcd w (s_store (w_srv w id)) with Some o => o | None => s_slots (w_srv w id) end))) group
    (Some (match w_etcd w (s_store (w_srv w id)) with Some o => o | None => s_slots (w_srv w id) end))).
  { destruct (w_etcd w (s_store (w_srv w id))); injection H as <-; reflexivity. }
  subst w'. cbn [put_etcd w_etcd]. rewrite str_eqb_refl. split; [reflexivity|]. split; [reflexivity|].
  intros N1. destruct (str_eqb_spec (s_store (w_srv w id)) group); [contradiction|].
  cbn [put_srv put_etcd w_etcd]. rewrite str_eqb_refl. reflexivity.
Qed.

Example C137_overwrites_case :
  w_etcd (update_conf true false ex_world (s2l "f"%string) (s2l "b"%string) []).2 (s2l "b"%string) = Some [s2l "0-100"%string] /\
  w_etcd ex_world (s2l "b"%string) = Some [s2l "100-200"%string].
Proof. vm_compute. split; reflexivity. Qed.

(** ** C138: a server that leaves is out of its group *)

(** A leader that leaves: out of its group, leading no more, nobody else touched. *)
Theorem C138_leader : forall fail w id g w', s_leads (w_srv w id) = Some g -> leave fail w id = (ROk, w') ->
  (forall x a, voter_of w' g x a <-> voter_of w g x a /\ x <> id) /\ sound (w_conf w' g) /\
  else_same g id w w' /\ s_leads (w_srv w' id) = None.
Proof.
  intros fail w id g w' G H. unfold leave in H. destruct (s_on (w_srv w id)); cbn [negb] in H; [|discriminate].
  rewrite G in H. destruct (change _ _ _) as [c|] eqn:E; [|discriminate].
  apply change_some in E as (_ & S & ->). injection H as <-.
  unfold voter_of. cbn [put_srv w_conf]. rewrite put_conf_same.
  split; [intros; apply drop_voter_in|]. split; [exact S|]. split.
  - split; [intros g' X; apply put_conf_other, X|].
    split; [intros x X; rewrite (put_srv_other _ id _ x X); reflexivity|]. split; reflexivity.
  - rewrite put_srv_same. reflexivity.
Qed.

Example C138_leader_case :
  (leave false ex_world (s2l "m"%string)).1 = ROk /\
  w_conf (leave false ex_world (s2l "m"%string)).2 0 = [(s2l "f"%string, s2l "h2:80"%string)].
Proof. vm_compute. split; reflexivity. Qed.

(** The last member cannot leave. *)
Theorem C138_last : forall fail w id g addr, s_on (w_srv w id) = true -> s_leads (w_srv w id) = Some g ->
  w_conf w g = [(id, addr)] -> leave fail w id = (RSays, w).
Proof.
  intros fail w id g addr On G C. unfold leave. rewrite On. cbn [negb]. rewrite G, C.
  unfold drop_voter. cbn [List.filter fst]. rewrite str_eqb_refl. cbn [negb]. unfold change. destruct fail; reflexivity.
Qed.

Example C138_last_case : w_conf ex_world 1 = [(s2l "n"%string, s2l "h3:80"%string)].
Proof. reflexivity. Qed.

(** A follower that leaves is out of the group of its leader. *)
Theorem C138_follower : forall fail w id w', s_leads (w_srv w id) = None -> leave fail w id = (ROk, w') ->
  exists g, s_leads (w_srv w (s_leader (w_srv w id))) = Some g /\
    (forall x a, voter_of w' g x a <-> voter_of w g x a /\ x <> id) /\ sound (w_conf w' g) /\
    else_same g (s_leader (w_srv w id)) w w' /\ w_srv w' id = w_srv w id.
Proof.
  intros fail w id w' G H. unfold leave in H. destruct (s_on (w_srv w id)); cbn [negb] in H; [|discriminate].
  rewrite G in H. destruct (str_eqb _ _); [discriminate|].
  apply C135_remove in H as (g & L & V & S & E & _). exists g.
  split; [exact L|]. split; [exact V|]. split; [exact S|]. split; [exact E|].
  apply E. intros X. rewrite <- X in L. congruence.
Qed.

Example C138_follower_case :
  (leave false ex_world (s2l "f"%string)).1 = ROk /\
  w_conf (leave false ex_world (s2l "f"%string)).2 0 = [(s2l "m"%string, s2l "h1:80"%string)].
Proof. vm_compute. split; reflexivity. Qed.

(** Not leaving: the answer is a failure and nothing changed. *)
Theorem C138_failed : forall fail w id r w', leave fail w id = (r, w') -> r <> ROk -> w' = w.
Proof.
  intros fail w id r w' H N1. unfold leave in H.
  destruct (s_on (w_srv w id)); cbn [negb] in H; [|injection H as <- <-; reflexivity].
  destruct (s_leads (w_srv w id)).
  - destruct (change _ _ _); injection H as <- <-; [congruence|reflexivity].
  - destruct (str_eqb _ _); [injection H as <- <-; reflexivity|]. eapply remove_follower_not; eassumption.
Qed.

(** What it remembers it keeps: after leaving, and after a restart, the server still
    takes the group's slots for its own. *)
Theorem C138_forgets_refuted : forall fail w id w', s_on (w_srv w id) = true -> at_home (w_srv w id) ->
  leave fail w id = (ROk, w') ->
  s_slots (restart id (w_srv w' id)) = s_slots (w_srv w id) /\
  s_store (restart id (w_srv w' id)) = s_store (w_srv w id) /\
  s_group (restart id (w_srv w' id)) = s_group (w_srv w id) /\
  s_nodes (restart id (w_srv w' id)) = s_nodes (w_srv w id).
Proof.
  intros fail w id w' On Hm H. unfold at_home in Hm.
  assert (E : w_srv w' id = w_srv w id \/ w_srv w' id = no_leader (w_srv w id)).
  { destruct (s_leads (w_srv w id)) as [g|] eqn:G.
    - right. unfold leave in H. rewrite On in H. cbn [negb] in H. rewrite G in H.
      destruct (change _ _ _); [|discriminate]. injection H as <-. apply put_srv_same.
    - left. apply C138_follower in H as (g & _ & _ & _ & _ & E); [exact E|exact G]. }
  destruct E as [E|E]; rewrite E; unfold restart; cbn; rewrite On, (Hm On); repeat split.
Qed.

(** ** C139: forming a group *)

(** With servers given, or a proper list of nodes in the configuration, the group is that
    list, or is refused because the list is unsound or the server has a group already. *)
Theorem C139_given : forall fresh before after id addr services nodes r c nodes',
  services <> [] -> bootstrap fresh before after id addr services nodes = (r, c, nodes') ->
  nodes' = nodes /\ ((r = ROk /\ c = Some services /\ fresh = true /\ sound services) \/
                     (r = RSays /\ c = None /\ (fresh = false \/ ~ sound services))).
Proof.
  intros fresh before after id addr services nodes r c nodes' N1 H. unfold bootstrap in H.
  destruct services as [|v vs]; [congruence|]. remember (v :: vs) as s.
  rewrite <- check_conf_iff.
  destruct fresh, (check_conf s); cbn [andb] in H; injection H as <- <- <-; (split; [reflexivity|]); auto;
    right; repeat split; auto.
Qed.

Theorem C139_nodes : forall fresh before after id addr voters r c nodes',
  voters <> [] -> Forall (fun v => ~ In ","%char v.1 /\ ~ In ","%char v.2) voters ->
  bootstrap fresh before after id addr [] (map node voters) = (r, c, nodes') ->
  nodes' = map node voters /\ ((r = ROk /\ c = Some voters /\ fresh = true /\ sound voters) \/
                               (r = RSays /\ c = None /\ (fresh = false \/ ~ sound voters))).
Proof.
  intros fresh before after id addr voters r c nodes' N1 F H. unfold bootstrap in H.
  assert (E : match map node voters with [] => [print_cluster before id after ++ ","%char :: addr] | _ => map node voters end = map node voters)
    by (destruct voters; [congruence|reflexivity]).
  cbv zeta in H. rewrite E in H.
  assert (P : map parse_node (map node voters) = voters).
  { clear -F. induction F as [|v vs (Ha & Hb) _ IH]; [reflexivity|]. cbn [map].
    rewrite IH, (parse_node_well v Ha Hb). reflexivity. }
  rewrite P in H. rewrite <- check_conf_iff.
  destruct fresh, (check_conf voters); cbn [andb] in H; injection H as <- <- <-; (split; [reflexivity|]); auto;
    right; repeat split; auto.
Qed.

Example C139_nodes_case :
  bootstrap true [] [] (s2l "m"%string) (s2l "h1:80"%string) [] [s2l "m,h1:80"%string; s2l "f,h2:80"%string] =
    (ROk, Some [(s2l "m"%string, s2l "h1:80"%string); (s2l "f"%string, s2l "h2:80"%string)], [s2l "m,h1:80"%string; s2l "f,h2:80"%string]).
Proof. vm_compute. reflexivity. Qed.

(** At start, too; and with no nodes configured it is the server by itself. *)
Theorem C139_start : forall id addr voters, Forall (fun v => ~ In ","%char v.1 /\ ~ In ","%char v.2) voters ->
  start_conf id addr (map node voters) = Some (match voters with [] => [(id, addr)] | _ => voters end).
Proof.
  intros id addr voters F. unfold start_conf.
  assert (P : map parse_node (map node voters) = voters).
  { clear -F. induction F as [|v vs (Ha & Hb) _ IH]; [reflexivity|]. cbn [map].
    rewrite IH, (parse_node_well v Ha Hb). reflexivity. }
  assert (Q : forallb (fun n => match split_on ","%char n with [_; _] => true | _ => false end) (map node voters) = true).
  { clear -F. induction F as [|[a b] vs (Ha & Hb) _ IH]; [reflexivity|]. cbn [map forallb]. unfold node. cbn [fst snd] in *.
    rewrite split_on_app by exact Ha. rewrite split_on_notin by exact Hb. exact IH. }
  rewrite Q, P. destruct voters; reflexivity.
Qed.

Example C139_start_case : start_conf (s2l "m"%string) (s2l "h1:80"%string) [] = Some [(s2l "m"%string, s2l "h1:80"%string)].
Proof. reflexivity. Qed.

(** The command without nodes does not form a group of the server: the group it forms, if
    any, does not have the server in it, and the list of nodes is spoilt. *)
Theorem C139_alone_refuted : forall fresh before after id addr r c nodes',
  bootstrap fresh before after id addr [] [] = (r, c, nodes') ->
  nodes' <> [] /\ match c with Some l => ~ In id (map fst l) | None => True end.
Proof.
  intros fresh before after id addr r c nodes' H. unfold bootstrap in H. cbv zeta in H.
  cbn [map] in H. set (v := parse_node _) in H.
  destruct (fresh && check_conf [v]) eqn:E; injection H as <- <- <-; (split; [discriminate|]); [|exact I].
  apply andb_true_iff in E as (_ & E). apply check_conf_iff in E as (_ & _ & _ & F).
  inversion F as [|? ? (V1 & _) _]; subst. cbn [map]. intros [X|[]].
  unfold v, parse_node in *. clear v.
  destruct (split_on _ _) as [|a [|b [|? ?]]] eqn:S; try (cbn in V1; congruence).
  cbn [fst] in X, V1. subst a.
  assert (J : exists t, print_cluster before id after ++ ","%char :: addr = id ++ ","%char :: t /\ ~ In ","%char t /\ ~ In ","%char id).
  { pose proof (proj1 (split_no_sep ","%char (print_cluster before id after ++ ","%char :: addr) [])) as Q. rewrite S in Q.
    pose proof (Q id (or_introl eq_refl)) as Q1. pose proof (Q b (or_intror (or_introl eq_refl))) as Q2.
    exists b. split; [|auto]. clear -S Q1 Q2.
    remember (print_cluster before id after ++ ","%char :: addr) as s. clear Heqs.
    revert id b S Q1 Q2. induction s as [|c r IH]; intros id b S Q1 Q2; cbn in S; [discriminate|].
    destruct (ascii_dec c ","%char) as [->|Hc].
    - injection S as <- S. cbn. f_equal.
      clear IH. revert b S Q2. induction r as [|d r IH]; intros b S Q2; cbn in S; [congruence|].
      destruct (ascii_dec d ","%char) as [->|Hd]; [injection S as <- S; exfalso; eapply split_on_nonempty, S|].
      destruct (split_on ","%char r) as [|e q] eqn:E; [exfalso; eapply split_on_nonempty, E|].
      injection S as <- ->. f_equal. apply IH; [reflexivity|]. intros I. apply Q2. right. exact I.
    - destruct (split_on ","%char r) as [|e q] eqn:E; [exfalso; eapply split_on_nonempty, E|].
      injection S as <- ->. cbn. f_equal. apply IH; [reflexivity| |exact Q2]. intros I. apply Q1. right. exact I. }
  destruct J as (t & J & N1 & N2).
  (* the only comma is the one written after the printed configuration *)
  assert (K : forall a a' b b' : str, ~ In ","%char a -> ~ In ","%char b' -> ~ In ","%char b -> a ++ ","%char :: b' = a' ++ ","%char :: b -> a' = a).
  { clear. induction a as [|x a IH]; intros a' b b' Na Nb' Nb E; destruct a' as [|y a']; cbn in E.
    - reflexivity.
    - injection E as <- E. exfalso. apply Nb'. rewrite E. apply in_or_app. right. left. reflexivity.
    - injection E as -> E. exfalso. apply Na. left. reflexivity.
    - injection E as -> E. f_equal. eapply IH; [| |exact Nb|exact E]; [|exact Nb']. intros I. apply Na. right. exact I. }
  assert (Nb : ~ In ","%char addr).
  { intros I. assert (C2 : forall s : str, List.length (split_on ","%char s) = Datatypes.S (count_occ ascii_dec s ","%char)).
    { clear. induction s as [|c r IH]; cbn; [reflexivity|]. destruct (ascii_dec c ","%char); cbn; [rewrite IH; reflexivity|].
      destruct (split_on ","%char r); cbn in *; lia. }
    pose proof (C2 (print_cluster before id after ++ ","%char :: addr)) as C3. rewrite S in C3. cbn [List.length] in C3.
    rewrite count_occ_app in C3. cbn in C3. apply (count_occ_In ascii_dec) in I. lia. }
  symmetry in J. pose proof (K id (print_cluster before id after) addr t N2 N1 Nb J) as Z.
  exact (print_cluster_not before id after Z).
Qed.

Example C139_alone_case :
  (bootstrap true (s2l "true"%string) [] (s2l "m"%string) (s2l "h1:80"%string) [] []).1.2 =
    Some [(s2l "{true m }"%string, s2l "h1:80"%string)].
Proof. vm_compute. reflexivity. Qed.

(** A node that is not "id,host:port" is not skipped, as the log says: the whole command
    is refused. *)
Theorem C139_skip_refuted : forall fresh before after id addr nodes n,
  In n nodes -> (forall a b, split_on ","%char n <> [a; b]) ->
  bootstrap fresh before after id addr [] nodes = (RSays, None, nodes).
Proof.
  intros fresh before after id addr nodes n I W. unfold bootstrap.
  assert (E : match nodes with [] => [print_cluster before id after ++ ","%char :: addr] | _ => nodes end = nodes)
    by (destruct nodes; [contradiction|reflexivity]).
  cbv zeta. rewrite E.
  assert (C : check_conf (map parse_node nodes) = false).
  { destruct (check_conf _) eqn:C; [|reflexivity]. exfalso.
    apply check_conf_iff in C as (_ & _ & _ & F). rewrite List.Forall_forall in F.
    destruct (F (parse_node n) (in_map parse_node nodes n I)) as (V & _).
    unfold parse_node in V. destruct (split_on ","%char n) as [|a [|b [|? ?]]] eqn:S; try (cbn in V; congruence). }
  rewrite C, andb_false_r. reflexivity.
Qed.

Example C139_skip_case : forall a b, split_on ","%char (s2l "h2:80"%string) <> [a; b].
Proof. discriminate. Qed.

(** Nodes given through the environment can never be read: the variable is split at the
    commas that separate ids from addresses, and the server panics at start. *)
Theorem C139_env_refuted : forall id addr value, start_conf id addr (env_nodes value) = None.
Proof. exact env_malformed. Qed.

Print Assumptions C135_add.
Print Assumptions C135_add_stays.
Print Assumptions C135_remove.
Print Assumptions C135_remove_failed.
Print Assumptions C135_leaders_only.
Print Assumptions C135_sound.
Print Assumptions C135_half_refuted.
Print Assumptions C135_peers.
Print Assumptions C136_add_refuted.
Print Assumptions C136_remove_partial.
Print Assumptions C136_first_refuted.
Print Assumptions C137_joins.
Print Assumptions C137_again.
Print Assumptions C137_refused.
Print Assumptions C137_home.
Print Assumptions C137_restart.
Print Assumptions C137_both_refuted.
Print Assumptions C137_slots_refuted.
Print Assumptions C137_failed_refuted.
Print Assumptions C137_overwrites_refuted.
Print Assumptions C138_leader.
Print Assumptions C138_last.
Print Assumptions C138_follower.
Print Assumptions C138_failed.
Print Assumptions C138_forgets_refuted.
Print Assumptions C139_given.
Print Assumptions C139_nodes.
Print Assumptions C139_start.
Print Assumptions C139_alone_refuted.
Print Assumptions C139_skip_refuted.
Print Assumptions C139_env_refuted.
