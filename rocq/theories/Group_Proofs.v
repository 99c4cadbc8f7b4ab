(** Proofs about [Group_Model]. *)
From stdpp Require Import list.
From Verif Require Import Str_Model Str_Proofs Meta_Model Meta_List Group_Model Group_Spec.
Local Open Scope list_scope.

(** ** The raft library *)

Lemma existsb_str : forall x l, existsb (str_eqb x) l = true <-> In x l.
Proof.
  intros x l. rewrite existsb_exists. split.
  - intros (y & I & E). apply str_eqb_eq in E. subst. exact I.
  - intros I. exists x. split; [exact I|apply str_eqb_refl].
Qed.

Lemma distinct_iff : forall l, distinct l = true <-> NoDup l.
Proof.
  induction l as [|x r IH]; cbn.
  - split; [constructor|reflexivity].
  - rewrite andb_true_iff, negb_true_iff, IH, List.NoDup_cons_iff, <- existsb_str.
    destruct (existsb (str_eqb x) r); intuition congruence.
Qed.

Lemma check_conf_iff : forall c, check_conf c = true <-> sound c.
Proof.
  intros c. unfold check_conf, sound. rewrite !andb_true_iff, !distinct_iff, forallb_forall, List.Forall_forall.
  assert (E : forall a : str, negb (str_eqb a []) = true <-> a <> []).
  { intros a. destruct (str_eqb_spec a []); cbn; intuition congruence. }
  setoid_rewrite andb_true_iff. setoid_rewrite E.
  destruct c; cbn; intuition congruence.
Qed.

Lemma change_some : forall fail c c' d, change fail c c' = Some d <-> fail = false /\ sound c' /\ d = c'.
Proof.
  intros fail c c' d. unfold change. destruct fail; [intuition congruence|].
  destruct (check_conf c') eqn:E.
  - apply check_conf_iff in E. intuition congruence.
  - split; [discriminate|]. intros (_ & H & _). apply check_conf_iff in H. congruence.
Qed.

Lemma set_voter_in : forall id addr c, In (id, addr) (set_voter id addr c).
Proof.
  intros id addr. induction c as [|v r IH]; cbn; [auto|].
  destruct (str_eqb v.1 id); cbn; auto.
Qed.

Lemma set_voter_other : forall id addr c x a, x <> id -> In (x, a) (set_voter id addr c) <-> In (x, a) c.
Proof.
  intros id addr c x a H. induction c as [|[y b] r IH]; cbn.
  - intuition congruence.
  - destruct (str_eqb_spec y id) as [ -> | ]; cbn; rewrite ?IH; intuition congruence.
Qed.

Lemma set_voter_own : forall id addr c a, NoDup (map fst c) -> In (id, a) (set_voter id addr c) -> a = addr.
Proof.
  intros id addr c a. induction c as [|[y b] r IH]; cbn; intros D I.
  - destruct I as [I|[]]. congruence.
  - apply List.NoDup_cons_iff in D as (N1 & D).
    destruct (str_eqb_spec y id) as [ -> | H ]; cbn in I.
    + destruct I as [I|I]; [congruence|]. exfalso. apply N1. apply in_map_iff. exists (id, a). auto.
    + destruct I as [I|I]; [congruence|]. auto.
Qed.

Lemma drop_voter_in : forall id c x a, In (x, a) (drop_voter id c) <-> In (x, a) c /\ x <> id.
Proof.
  intros id c x a. unfold drop_voter. rewrite filter_In. cbn.
  destruct (str_eqb_spec x id); cbn; intuition congruence.
Qed.

(** ** Adding *)

Lemma record_nodes_same : forall voters nodes, record_nodes voters nodes = nodes.
Proof.
  intros voters nodes. unfold record_nodes.
  assert (H : forall (vs : list (str * str)) (l : list str), fold_left (fun (l : list str) v => if existsb (str_eqb (node v)) nodes then l else l ++ []) vs l = l).
  { induction vs as [|v r IH]; intros l; cbn; [reflexivity|].
    destruct (existsb _ nodes); rewrite ?app_nil_r; apply IH. }
  apply H.
Qed.

Lemma add_all_sound : forall voters fails c, sound c -> sound (add_all fails voters c).1.
Proof.
  induction voters as [|v r IH]; intros fails c H; cbn; [exact H|].
  destruct (change _ _ _) eqn:E.
  - apply change_some in E as (_ & S & ->). apply IH, S.
  - cbn. apply IH, H.
Qed.

Lemma add_all_keeps : forall voters fails c x a, ~ In x (map fst voters) ->
  In (x, a) (add_all fails voters c).1 <-> In (x, a) c.
Proof.
  induction voters as [|[y b] r IH]; intros fails c x a H; cbn; [reflexivity|].
  cbn in H. destruct (change _ _ _) eqn:E.
  - apply change_some in E as (_ & S & ->). rewrite IH by tauto. apply set_voter_other. intuition congruence.
  - cbn. apply IH. tauto.
Qed.

Lemma add_all_stay : forall voters fails c x, In x (map fst c) -> In x (map fst (add_all fails voters c).1).
Proof.
  induction voters as [|[y b] r IH]; intros fails c x H; cbn; [exact H|].
  destruct (change _ _ _) eqn:E.
  - apply change_some in E as (_ & S & ->). apply IH.
    apply in_map_iff in H as ([z a] & <- & I). cbn.
    destruct (str_eqb_spec z y) as [ -> | H ].
    + apply in_map_iff. exists (y, b). split; [reflexivity|]. apply set_voter_in.
    + apply in_map_iff. exists (z, a). split; [reflexivity|]. apply set_voter_other; assumption.
  - cbn. apply IH, H.
Qed.

Lemma add_all_ok : forall voters fails c, NoDup (map fst voters) -> (add_all fails voters c).2 = true ->
  forall id addr, In (id, addr) voters -> In (id, addr) (add_all fails voters c).1.
Proof.
  induction voters as [|[y b] r IH]; intros fails c D H id addr I; cbn in *; [contradiction|].
  apply List.NoDup_cons_iff in D as (N1 & D).
  destruct (change _ _ _) eqn:E; [|discriminate].
  apply change_some in E as (_ & S & ->).
  destruct I as [I|I].
  - injection I as -> ->. apply add_all_keeps; [exact N1|]. apply set_voter_in.
  - apply IH; assumption.
Qed.

Lemma add_all_own : forall voters fails c, sound c -> NoDup (map fst voters) -> (add_all fails voters c).2 = true ->
  forall id addr a, In (id, addr) voters -> In (id, a) (add_all fails voters c).1 -> a = addr.
Proof.
  intros voters fails c S D H id addr a I J.
  pose proof (add_all_ok voters fails c D H id addr I) as K.
  destruct (add_all_sound voters fails c S) as (_ & N1 & _).
  revert N1 J K. generalize (add_all fails voters c).1. intros l. induction l as [|[z e] r IH]; cbn; [tauto|].
  intros N1 J K. apply List.NoDup_cons_iff in N1 as (N1 & N2).
  assert (Q : forall e', In (z, e') r -> False).
  { intros e' Q. apply N1, in_map_iff. exists (z, e'). auto. }
  destruct J as [J|J], K as [K|K]; [congruence| | |auto].
  - injection J as -> ->. exfalso. eapply Q, K.
  - injection K as -> ->. exfalso. eapply Q, J.
Qed.

Lemma put_srv_same : forall w m s, w_srv (put_srv w m s) m = s.
Proof. intros. cbn. rewrite str_eqb_refl. reflexivity. Qed.

Lemma put_srv_other : forall w m s x, x <> m -> w_srv (put_srv w m s) x = w_srv w x.
Proof. intros w m s x H. cbn. destruct (str_eqb_spec x m); congruence. Qed.

Lemma put_conf_same : forall w g c, w_conf (put_conf w g c) g = c.
Proof. intros. cbn. rewrite Nat.eqb_refl. reflexivity. Qed.

Lemma put_conf_other : forall w g c x, x <> g -> w_conf (put_conf w g c) x = w_conf w x.
Proof. intros w g c x H. cbn. destruct (Nat.eqb_spec x g); congruence. Qed.

Lemma add_voter_ok : forall fails w m voters w', add_voter fails w m voters = (ROk, w') ->
  exists g, s_on (w_srv w m) = true /\ s_leads (w_srv w m) = Some g /\ voters <> [] /\
            (add_all fails voters (w_conf w g)).2 = true /\
            w' = put_srv (put_conf w g (add_all fails voters (w_conf w g)).1) m (with_nodes (w_srv w m) (s_nodes (w_srv w m))).
Proof.
  intros fails w m voters w' H. unfold add_voter in H.
  destruct (s_on (w_srv w m)); cbn [negb] in H; [|discriminate].
  destruct (s_leads (w_srv w m)) as [g|]; [|discriminate].
  destruct voters as [|v r]; [discriminate|].
  remember (v :: r) as vs. destruct (add_all fails vs (w_conf w g)) as [c ok] eqn:E.
  destruct ok; [|discriminate]. rewrite record_nodes_same in H. injection H as <-.
  exists g. rewrite E. cbn [fst snd]. repeat split; try reflexivity. subst vs. discriminate.
Qed.

Lemma with_nodes_own : forall s, with_nodes s (s_nodes s) = s.
Proof. intros []. reflexivity. Qed.

(** ** Removing *)

Lemma node_index_some : forall id l i, node_index id l = Some i ->
  exists a n b, l = a ++ n :: b /\ List.length a = i /\ prefixb (id ++ [","%char]) n = true /\
                Forall (fun x => prefixb (id ++ [","%char]) x = false) a.
Proof.
  intros id. induction l as [|x r IH]; intros i H; cbn in H; [discriminate|].
  destruct (prefixb (id ++ [","%char]) x) eqn:E.
  - injection H as <-. exists [], x, r. repeat split; auto.
  - destruct (node_index id r) as [j|] eqn:J; [|discriminate]. cbn in H. injection H as <-.
    destruct (IH j eq_refl) as (a & n & b & -> & L & P & F).
    exists (x :: a), n, b. repeat split; cbn; auto.
Qed.

Lemma node_index_none : forall id l, node_index id l = None -> Forall (fun x => prefixb (id ++ [","%char]) x = false) l.
Proof.
  intros id. induction l as [|x r IH]; intros H; cbn in H; [constructor|].
  destruct (prefixb (id ++ [","%char]) x) eqn:E; [discriminate|].
  destruct (node_index id r); [discriminate|]. constructor; auto.
Qed.

Lemma remove_node_cut : forall id n0 a n b,
  prefixb (id ++ [","%char]) n0 = false -> Forall (fun x => prefixb (id ++ [","%char]) x = false) a ->
  prefixb (id ++ [","%char]) n = true -> remove_node id (n0 :: a ++ n :: b) = a ++ n0 :: b.
Proof.
  intros id n0 a n b H0 Ha Hn. unfold remove_node. cbn [node_index]. rewrite H0.
  assert (E : node_index id (a ++ n :: b) = Some (List.length a)).
  { clear H0 n0. induction a as [|x r IH]; cbn; [rewrite Hn; reflexivity|].
    apply List.Forall_cons_iff in Ha as (Hx & Hr). rewrite Hx, (IH Hr). reflexivity. }
  rewrite E. cbn [option_map hd nth].
  change (<[S (List.length a) := n0]> (n0 :: a ++ n :: b)) with (n0 :: <[List.length a := n0]> (a ++ n :: b)).
  cbn. clear. induction a as [|x r IH]; cbn; [reflexivity|]. f_equal. exact IH.
Qed.

Lemma remove_node_first : forall id n l, prefixb (id ++ [","%char]) n = true -> remove_node id (n :: l) = n :: l.
Proof. intros id n l H. unfold remove_node. cbn [node_index]. rewrite H. reflexivity. Qed.

Lemma remove_node_none : forall id l, Forall (fun x => prefixb (id ++ [","%char]) x = false) l -> remove_node id l = l.
Proof.
  intros id l H. unfold remove_node.
  assert (E : node_index id l = None).
  { induction H as [|x r Hx _ IH]; cbn; [reflexivity|]. rewrite Hx, IH. reflexivity. }
  rewrite E. reflexivity.
Qed.

Lemma prefix_listed : forall id n, prefixb (id ++ [","%char]) n = true <-> exists addr, n = id ++ ","%char :: addr.
Proof.
  intros id n. rewrite prefixb_iff. split; intros [t ->]; exists t; rewrite <- ?app_assoc; reflexivity.
Qed.

Lemma listed_iff : forall nodes id, listed nodes id <-> exists n, In n nodes /\ prefixb (id ++ [","%char]) n = true.
Proof.
  intros nodes id. unfold listed. split.
  - intros [a I]. exists (id ++ ","%char :: a). split; [exact I|]. apply prefix_listed. eauto.
  - intros (n & I & P). apply prefix_listed in P as [a ->]. eauto.
Qed.

Lemma not_listed_iff : forall nodes id, ~ listed nodes id <-> Forall (fun x => prefixb (id ++ [","%char]) x = false) nodes.
Proof.
  intros nodes id. rewrite listed_iff, List.Forall_forall. split.
  - intros H n I. destruct (prefixb _ n) eqn:E; [|reflexivity]. exfalso. eauto.
  - intros H (n & I & P). rewrite (H n I) in P. discriminate.
Qed.

Lemma remove_follower_ok : forall fail w m id w', remove_follower fail w m id = (ROk, w') ->
  exists g, s_on (w_srv w m) = true /\ s_leads (w_srv w m) = Some g /\ sound (drop_voter id (w_conf w g)) /\
            w' = put_srv (put_conf w g (drop_voter id (w_conf w g))) m
                   (let s1 := with_nodes (w_srv w m) (remove_node id (s_nodes (w_srv w m))) in
                    if str_eqb id m then no_leader s1 else s1).
Proof.
  intros fail w m id w' H. unfold remove_follower in H.
  destruct (s_on (w_srv w m)); cbn [negb] in H; [|discriminate].
  destruct (s_leads (w_srv w m)) as [g|]; [|discriminate].
  destruct (change _ _ _) as [c|] eqn:E; [|discriminate].
  apply change_some in E as (_ & S & ->). injection H as <-. eauto.
Qed.

Lemma remove_follower_not : forall fail w m id r w', remove_follower fail w m id = (r, w') -> r <> ROk -> r = RErr /\ w' = w.
Proof.
  intros fail w m id r w' H N1. unfold remove_follower in H.
  destruct (s_on (w_srv w m)); cbn [negb] in H; [|injection H as <- <-; auto].
  destruct (s_leads (w_srv w m)) as [g|]; [|injection H as <- <-; auto].
  destruct (change _ _ _) as [c|]; injection H as <- <-; [congruence|auto].
Qed.

(** ** Everything keeps groups sound *)

Lemma put_srv_sound : forall w m s, all_sound w -> all_sound (put_srv w m s).
Proof. intros w m s H g. apply H. Qed.

Lemma put_etcd_sound : forall w m s, all_sound w -> all_sound (put_etcd w m s).
Proof. intros w m s H g. apply H. Qed.

Lemma put_conf_sound : forall w g c, all_sound w -> sound c -> all_sound (put_conf w g c).
Proof. intros w g c H S g'. cbn. destruct (g' =? g); auto. Qed.

Lemma add_voter_sound : forall fails w m voters, all_sound w -> all_sound (add_voter fails w m voters).2.
Proof.
  intros fails w m voters H. unfold add_voter.
  destruct (s_on (w_srv w m)); cbn [negb]; [|exact H].
  destruct (s_leads (w_srv w m)) as [g|]; [|exact H].
  destruct voters as [|v r]; [exact H|].
  pose proof (add_all_sound (v :: r) fails (w_conf w g) (H g)) as S.
  destruct (add_all fails (v :: r) (w_conf w g)) as [c ok]. cbn in S.
  destruct ok; [apply put_srv_sound|]; apply put_conf_sound; assumption.
Qed.

Lemma remove_follower_sound : forall fail w m id, all_sound w -> all_sound (remove_follower fail w m id).2.
Proof.
  intros fail w m id H. destruct (remove_follower fail w m id) as [r w'] eqn:E. cbn.
  destruct r; [|apply remove_follower_not in E as (_ & ->); [exact H|discriminate]..].
  apply remove_follower_ok in E as (g & _ & _ & S & ->). apply put_srv_sound, put_conf_sound; assumption.
Qed.

Lemma leave_sound : forall fail w id, all_sound w -> all_sound (leave fail w id).2.
Proof.
  intros fail w id H. unfold leave.
  destruct (s_on (w_srv w id)); cbn [negb]; [|exact H].
  destruct (s_leads (w_srv w id)) as [g|].
  - destruct (change _ _ _) as [c|] eqn:E; [|exact H]. apply change_some in E as (_ & S & ->).
    apply put_srv_sound, put_conf_sound; assumption.
  - destruct (str_eqb _ _); [exact H|]. apply remove_follower_sound, H.
Qed.

Lemma update_conf_sound : forall leads down w id group nodes, all_sound w ->
  all_sound (update_conf leads down w id group nodes).2.
Proof.
  intros leads down w id group nodes H. unfold update_conf. cbv zeta.
  destruct leads, down; try (apply put_srv_sound, H).
  - destruct (get_slots _ _ _); [|apply put_srv_sound, H]. apply put_etcd_sound, put_srv_sound, put_etcd_sound, put_srv_sound, H.
  - destruct (get_slots _ _ _); [|apply put_srv_sound, H]. apply put_srv_sound, put_srv_sound, H.
Qed.

Lemma join_end_sound : forall p w id m, all_sound w -> all_sound (join_end p w id m).2.
Proof.
  intros p w id m H. unfold join_end. destruct (p_conf p); [exact H|].
  destruct (s_on (w_srv w m)); cbn [negb]; [|exact H]. apply update_conf_sound, H.
Qed.

Lemma join_add_sound : forall p w id addr m, all_sound w -> all_sound (join_add p w id addr m).2.
Proof.
  intros p w id addr m H. unfold join_add. pose proof (add_voter_sound [p_add p] w m [(id, addr)] H) as S.
  destruct (add_voter _ _ _ _) as [[] w1]; cbn in S; [apply join_end_sound| |]; exact S.
Qed.

Lemma join_sound : forall p w id m, all_sound w -> all_sound (join p w id m).2.
Proof.
  intros p w id m H. unfold join.
  destruct (s_on (w_srv w id)); cbn [negb]; [|exact H].
  destruct (s_leads (w_srv w id)); [exact H|].
  destruct (w_known w m); cbn [negb]; [|exact H].
  destruct (str_eqb (s_leader (w_srv w id)) m); [apply join_end_sound, H|].
  destruct (str_eqb (s_leader (w_srv w id)) []); [apply join_add_sound, H|].
  pose proof (remove_follower_sound (p_drop p) w m id H) as S.
  destruct (remove_follower _ _ _ _) as [[] w1]; cbn in S; [apply join_add_sound| |]; exact S.
Qed.

(** ** Joining *)

Lemma update_conf_ok : forall down w id group nodes w', update_conf false down w id group nodes = (ROk, w') ->
  w' = put_srv (put_srv w id (with_store (with_group (w_srv w id) group nodes) group)) id
         (with_slots (with_store (with_group (w_srv w id) group nodes) group)
            (match w_etcd w group with Some l => l | None => s_slots (w_srv w id) end)).
Proof.
  intros down w id group nodes w' H. unfold update_conf in H. destruct down; [discriminate|].
  unfold get_slots in H. rewrite put_srv_same in H. cbn [put_srv w_etcd] in H.
  destruct (w_etcd w group) as [l|]; [injection H as <-; reflexivity|].
  cbn [s_store with_store] in H. rewrite str_eqb_refl in H. injection H as <-. reflexivity.
Qed.

Lemma join_end_ok : forall p w id m w', p_leads p = false -> m <> id -> join_end p w id m = (ROk, w') ->
  takes w w' id m /\ w_conf w' = w_conf w /\ w_known w' = w_known w /\ w_etcd w' = w_etcd w /\
  (forall x, x <> id -> w_srv w' x = w_srv w x).
Proof.
  intros p w id m w' L N1 H. unfold join_end in H. destruct (p_conf p); [discriminate|].
  destruct (s_on (w_srv w m)); cbn [negb] in H; [|discriminate]. rewrite L in H.
  apply update_conf_ok in H. subst w'. unfold takes. rewrite put_srv_same.
  rewrite !put_srv_other by exact N1.
  repeat split; try reflexivity. intros x X. rewrite !put_srv_other by exact X. reflexivity.
Qed.

Lemma join_add_ok : forall p w id addr m w', p_leads p = false -> m <> id -> join_add p w id addr m = (ROk, w') ->
  exists g, s_leads (w_srv w m) = Some g /\ takes w w' id m /\
    w_conf w' g = set_voter id addr (w_conf w g) /\ sound (w_conf w' g) /\
    (forall g', g' <> g -> w_conf w' g' = w_conf w g') /\
    w_known w' = w_known w /\ w_etcd w' = w_etcd w /\ (forall x, x <> id -> w_srv w' x = w_srv w x).
Proof.
  intros p w id addr m w' L N1 H. unfold join_add in H.
  destruct (add_voter _ _ _ _) as [[] w1] eqn:E; try discriminate.
  apply add_voter_ok in E as (g & _ & G & _ & A & ->).
  cbn [add_all hd tl fst snd] in H, A. rewrite with_nodes_own in H.
  destruct (change _ _ _) as [c|] eqn:C; [|discriminate]. cbn [fst] in H.
  apply change_some in C as (_ & S & ->).
  apply join_end_ok in H as (T & C1 & K & D & O); [|assumption..].
  exists g. rewrite C1. cbn [put_srv w_conf]. rewrite put_conf_same.
  split; [exact G|]. split.
  { unfold takes in *. rewrite put_srv_same in T. rewrite (put_srv_other _ m _ id) in T by congruence.
    cbn [put_srv put_conf w_etcd w_srv] in T. exact T. }
  repeat split; try assumption; try apply S.
  - intros g' X. apply put_conf_other, X.
  - intros x X. rewrite (O x X). cbn. destruct (str_eqb_spec x m); congruence.
Qed.

Lemma join_ok : forall p w id m w', p_leads p = false -> s_leader (w_srv w id) <> m -> join p w id m = (ROk, w') ->
  exists g, s_leads (w_srv w m) = Some g /\ m <> id /\ w_known w m = true /\ takes w w' id m /\ sound (w_conf w' g) /\
    voter_of w' g id (s_addr (w_srv w id)) /\
    (forall a, NoDup (map fst (w_conf w g)) -> voter_of w' g id a -> a = s_addr (w_srv w id)) /\
    (forall x a, x <> id -> voter_of w' g x a <-> voter_of w g x a) /\
    (forall g', g' <> g -> w_conf w' g' = w_conf w g') /\
    w_known w' = w_known w /\ w_etcd w' = w_etcd w /\
    (forall x, x <> id -> x <> m -> w_srv w' x = w_srv w x) /\
    (w_srv w' m = w_srv w m \/ w_srv w' m = with_nodes (w_srv w m) (remove_node id (s_nodes (w_srv w m)))).
Proof.
  intros p w id m w' L N1 H. unfold join in H.
  destruct (s_on (w_srv w id)) eqn:On; cbn [negb] in H; [|discriminate].
  destruct (s_leads (w_srv w id)) eqn:Le; [discriminate|].
  destruct (w_known w m) eqn:Kn; cbn [negb] in H; [|discriminate].
  destruct (str_eqb_spec (s_leader (w_srv w id)) m) as [|_]; [contradiction|].
  destruct (str_eqb_spec (s_leader (w_srv w id)) []) as [E0|E0].
  - assert (N2 : m <> id).
    { intros ->. unfold join_add, add_voter in H. rewrite On, Le in H. discriminate. }
    apply join_add_ok in H as (g & G & T & C & S & O & K & D & X); [|assumption..].
    exists g. split; [exact G|]. split; [exact N2|]. split; [reflexivity|]. split; [exact T|]. split; [exact S|].
    unfold voter_of. rewrite C. split; [apply set_voter_in|].
    split; [intros a ND I; eapply set_voter_own; eassumption|].
    split; [intros; apply set_voter_other; assumption|].
    repeat split; try assumption; auto.
  - destruct (remove_follower _ _ _ _) as [[] w1] eqn:R; try discriminate.
    apply remove_follower_ok in R as (g & On2 & G & S1 & ->).
    assert (N2 : m <> id) by congruence.
    assert (E1 : str_eqb id m = false) by (destruct (str_eqb_spec id m); congruence).
    rewrite E1 in H. cbv zeta in H.
    apply join_add_ok in H as (g2 & G2 & T & C & S & O & K & D & X); [|assumption..].
    rewrite put_srv_same in G2. cbn [with_nodes s_leads] in G2. rewrite G in G2. injection G2 as <-.
    cbn [put_srv w_conf] in C. rewrite put_conf_same in C.
    exists g. split; [exact G|]. split; [exact N2|]. split; [reflexivity|]. split.
    { unfold takes in *. rewrite put_srv_same in T. rewrite (put_srv_other _ m _ id) in T by congruence.
      cbn [put_srv put_conf w_etcd w_srv with_nodes s_group] in T. exact T. }
    split; [exact S|]. unfold voter_of. rewrite C. split; [apply set_voter_in|].
    split.
    { intros a ND I. eapply (set_voter_own id _ (drop_voter id (w_conf w g))); [|exact I]. apply S1. }
    split.
    { intros x a Hx. rewrite set_voter_other, drop_voter_in by assumption. tauto. }
    repeat split; try assumption.
    + intros g' Hg. rewrite (O g' Hg). apply put_conf_other, Hg.
    + intros x Hx Hm. rewrite (X x Hx). rewrite (put_srv_other _ m _ x Hm). reflexivity.
    + right. rewrite (X m N2). apply put_srv_same.
Qed.

Lemma join_again : forall p w id m w', p_leads p = false -> s_leader (w_srv w id) = m -> m <> id -> join p w id m = (ROk, w') ->
  takes w w' id m /\ w_conf w' = w_conf w /\ w_known w' = w_known w /\ w_etcd w' = w_etcd w /\
  (forall x, x <> id -> w_srv w' x = w_srv w x).
Proof.
  intros p w id m w' L E N1 H. unfold join in H.
  destruct (s_on (w_srv w id)); cbn [negb] in H; [|discriminate].
  destruct (s_leads (w_srv w id)); [discriminate|].
  destruct (w_known w m); cbn [negb] in H; [|discriminate].
  rewrite E, str_eqb_refl in H. apply join_end_ok in H; assumption.
Qed.

(** Every command keeps a server at home. *)
Lemma with_nodes_home : forall s l, at_home s -> at_home (with_nodes s l).
Proof. intros [] l H. exact H. Qed.

Lemma no_leader_home : forall s, at_home s -> at_home (no_leader s).
Proof. intros [] H. exact H. Qed.

Lemma put_srv_home : forall w m s, (forall x, at_home (w_srv w x)) -> at_home s -> forall x, at_home (w_srv (put_srv w m s) x).
Proof. intros w m s H S x. cbn. destruct (str_eqb x m); auto. Qed.

Lemma add_voter_home : forall fails w m voters, (forall x, at_home (w_srv w x)) ->
  forall x, at_home (w_srv (add_voter fails w m voters).2 x).
Proof.
  intros fails w m voters H. unfold add_voter.
  destruct (s_on (w_srv w m)); cbn [negb]; [|exact H].
  destruct (s_leads (w_srv w m)) as [g|]; [|exact H].
  destruct voters as [|v r]; [exact H|].
  destruct (add_all fails (v :: r) (w_conf w g)) as [c []]; [|exact H].
  apply put_srv_home; [exact H|]. apply with_nodes_home, H.
Qed.

Lemma remove_follower_home : forall fail w m id, (forall x, at_home (w_srv w x)) ->
  forall x, at_home (w_srv (remove_follower fail w m id).2 x).
Proof.
  intros fail w m id H. unfold remove_follower.
  destruct (s_on (w_srv w m)); cbn [negb]; [|exact H].
  destruct (s_leads (w_srv w m)) as [g|]; [|exact H].
  destruct (change _ _ _); [|exact H].
  apply put_srv_home; [exact H|].
  destruct (str_eqb id m); [apply no_leader_home|]; apply with_nodes_home, H.
Qed.

Lemma leave_home : forall fail w id, (forall x, at_home (w_srv w x)) -> forall x, at_home (w_srv (leave fail w id).2 x).
Proof.
  intros fail w id H. unfold leave.
  destruct (s_on (w_srv w id)); cbn [negb]; [|exact H].
  destruct (s_leads (w_srv w id)) as [g|].
  - destruct (change _ _ _); [|exact H]. apply put_srv_home; [exact H|]. apply no_leader_home, H.
  - destruct (str_eqb _ _); [exact H|]. apply remove_follower_home, H.
Qed.

Lemma join_end_home : forall p w id m, p_leads p = false -> (forall x, at_home (w_srv w x)) ->
  forall x, at_home (w_srv (join_end p w id m).2 x).
Proof.
  intros p w id m L H. unfold join_end. destruct (p_conf p); [exact H|].
  destruct (s_on (w_srv w m)); cbn [negb]; [|exact H]. rewrite L.
  unfold update_conf. cbv zeta. destruct (p_etcd p).
  - apply put_srv_home; [exact H|]. intros _. reflexivity.
  - destruct (get_slots _ _ _).
    + apply put_srv_home; [apply put_srv_home; [exact H|]|]; intros _; reflexivity.
    + apply put_srv_home; [exact H|]. intros _. reflexivity.
Qed.

Lemma join_home : forall p w id m, p_leads p = false -> (forall x, at_home (w_srv w x)) ->
  forall x, at_home (w_srv (join p w id m).2 x).
Proof.
  intros p w id m L H. unfold join.
  destruct (s_on (w_srv w id)); cbn [negb]; [|exact H].
  destruct (s_leads (w_srv w id)); [exact H|].
  destruct (w_known w m); cbn [negb]; [|exact H].
  assert (A : forall w0 addr, (forall x, at_home (w_srv w0 x)) -> forall x, at_home (w_srv (join_add p w0 id addr m).2 x)).
  { intros w0 addr H0. unfold join_add. pose proof (add_voter_home [p_add p] w0 m [(id, addr)] H0) as S.
    destruct (add_voter _ _ _ _) as [[] w1]; cbn [snd] in S; [apply join_end_home; [exact L|]| |]; exact S. }
  destruct (str_eqb (s_leader (w_srv w id)) m); [apply join_end_home; assumption|].
  destruct (str_eqb (s_leader (w_srv w id)) []); [apply A, H|].
  pose proof (remove_follower_home (p_drop p) w m id H) as S.
  destruct (remove_follower _ _ _ _) as [[] w1]; cbn [snd] in S; [apply A| |]; exact S.
Qed.

(** ** Forming a group *)

Lemma split_no_sep : forall c n l, (forall x, In x (split_on c n) -> ~ In c x) /\ (split_on c n = l -> l <> []).
Proof.
  intros c n l. split.
  - induction n as [|a r IH]; cbn.
    + intros x [<-|[]] [].
    + destruct (ascii_dec a c) as [->|Hc].
      * intros x [<-|I]; [intros []|apply IH, I].
      * destruct (split_on c r) as [|p q] eqn:E; [exfalso; eapply split_on_nonempty, E|].
        intros x [<-|I]; [|apply IH; right; exact I].
        intros [J|J]; [congruence|]. eapply IH; [left; reflexivity|exact J].
  - intros <-. apply split_on_nonempty.
Qed.

Lemma env_malformed : forall id addr value, start_conf id addr (env_nodes value) = None.
Proof.
  intros id addr value. unfold start_conf, env_nodes.
  destruct (split_on ","%char value) as [|n r] eqn:E; [exfalso; eapply split_on_nonempty, E|].
  assert (I : ~ In ","%char n).
  { apply (proj1 (split_no_sep ","%char value [])). rewrite E. left. reflexivity. }
  cbn [forallb]. rewrite (split_on_notin _ n I). reflexivity.
Qed.

Lemma print_cluster_not : forall before id after, print_cluster before id after <> id.
Proof.
  intros before id after E. apply (f_equal (@List.length ascii)) in E. unfold print_cluster in E.
  cbn [List.length] in E. rewrite app_length in E. cbn [List.length] in E. rewrite app_length in E. cbn [List.length] in E. lia.
Qed.

Lemma parse_node_well : forall v, ~ In ","%char v.1 -> ~ In ","%char v.2 -> parse_node (node v) = v.
Proof.
  intros [a b] Ha Hb. unfold parse_node, node. cbn [fst snd] in *.
  rewrite split_on_app by exact Ha. rewrite split_on_notin by exact Hb. reflexivity.
Qed.
