(** Proofs about asking data servers over etcd. *)
From Coq Require Import List Bool Arith Lia.
From Verif Require Import Seek_Model Seek_Spec.
Import ListNotations.

(** ** Lists *)

Lemma nth_update_eq {A} (l : list A) : forall k x y, nth_error l k = Some y -> nth_error (update l k x) k = Some x.
Proof. induction l as [|a l IH]; intros [|k] x y H; try discriminate; [reflexivity|]. simpl in *. exact (IH _ _ _ H). Qed.

Lemma nth_update_ne {A} (l : list A) : forall k j x, j <> k -> nth_error (update l k x) j = nth_error l j.
Proof.
  induction l as [|a l IH]; intros [|k] [|j] x H; simpl; try reflexivity; try congruence.
  apply IH. congruence.
Qed.

Lemma update_length {A} (l : list A) : forall k x, length (update l k x) = length l.
Proof. induction l as [|a l IH]; intros [|k] x; simpl; auto. Qed.

Definition q_dec : forall a b : question, {a = b} + {a <> b}.
Proof. decide equality; apply Nat.eq_dec. Defined.
Definition a_dec : forall a b : nat * question, {a = b} + {a <> b}.
Proof. decide equality; [apply q_dec|apply Nat.eq_dec]. Defined.

Definition cq (q : question) (l : list question) : nat := count_occ q_dec l q.
Definition ca (s : nat) (q : question) (l : list (nat * question)) : nat := count_occ a_dec l (s, q).

Local Arguments cq : simpl never.
Local Arguments ca : simpl never.

Lemma cq_app q l l' : cq q (l ++ l') = cq q l + cq q l'.
Proof. apply count_occ_app. Qed.
Lemma cq_one q m : cq q [m] = if q_dec m q then 1 else 0.
Proof. reflexivity. Qed.
Lemma cq_cons q m l : cq q (m :: l) = (if q_dec m q then 1 else 0) + cq q l.
Proof. unfold cq. simpl. destruct (q_dec m q); reflexivity. Qed.
Lemma ca_app s q l l' : ca s q (l ++ l') = ca s q l + ca s q l'.
Proof. apply count_occ_app. Qed.
Lemma ca_one s q s' m : ca s q [(s', m)] = if Nat.eq_dec s' s then if q_dec m q then 1 else 0 else 0.
Proof.
  unfold ca. simpl. destruct (a_dec (s', m) (s, q)) as [E|E].
  - injection E as -> ->. destruct (Nat.eq_dec s s); [|congruence]. destruct (q_dec q q); [reflexivity|congruence].
  - destruct (Nat.eq_dec s' s); [|reflexivity]. destruct (q_dec m q); [congruence|reflexivity].
Qed.

Lemma cq_without l : forall j m q, nth_error l j = Some m ->
  cq q l = (if q_dec m q then 1 else 0) + cq q (without l j).
Proof.
  induction l as [|a l IH]; intros [|j] m q H; try discriminate; simpl in *.
  - injection H as ->. apply cq_cons.
  - rewrite !cq_cons, (IH _ _ q H). lia.
Qed.

Lemma NoDup_app_iff_one {A} (l : list A) x : NoDup (l ++ [x]) <-> NoDup l /\ ~ In x l.
Proof.
  split.
  - intros H. split; [apply NoDup_remove_1 in H; rewrite app_nil_r in H; exact H|].
    apply NoDup_remove_2 in H. rewrite app_nil_r in H. exact H.
  - intros [H N0]. apply (NoDup_Add (a := x) (l := l)).
    + rewrite <- (app_nil_r l) at 1. apply Add_app.
    + split; assumption.
Qed.

Section Seek.
  Variable holds : list (list (nat * nat)).

  (** ** The state stays well formed *)

  Definition request_ok (st : state) (r : nat) (q : request) : Prop :=
    rq_asked q <= rq_shards q /\
    (rq_phase q = Open -> ~ (rq_asked q = rq_shards q /\ rq_shards q <= rq_cnt q)) /\
    (rq_phase q = Ended true \/ rq_phase q = Gone true -> rq_asked q = rq_shards q /\ rq_shards q <= rq_cnt q) /\
    rq_cnt q + length (rq_events q) <= length (filter (fun a => q_req (snd a) =? r) (st_answers st)) /\
    (rq_phase q = Open -> rq_cnt q + length (rq_events q) = length (filter (fun a => q_req (snd a) =? r) (st_answers st))).

  Definition asked_ok (st : state) : Prop :=
    NoDup (st_asked st) /\
    forall m, In m (st_asked st) -> exists q, nth_error (st_requests st) (q_req m) = Some q /\ q_idx m < rq_asked q.

  Definition servers_ok (st : state) : Prop :=
    length (st_servers st) = length holds /\
    forall s sv, nth_error (st_servers st) s = Some sv -> sv_has sv = nth s holds [] /\
      forall m, ca s m (st_answers st) + cq m (sv_busy sv) + cq m (sv_queue sv) <= cq m (st_asked st).

  Definition answers_ok (st : state) : Prop :=
    forall s m, In (s, m) (st_answers st) -> s < length holds /\ about st holds s m.

  Definition ok (st : state) : Prop :=
    (forall r q, nth_error (st_requests st) r = Some q -> request_ok st r q) /\
    asked_ok st /\ servers_ok st /\ answers_ok st.

  Lemma has_stores s sv obj idx : sv_has sv = nth s holds [] -> has sv obj idx = true <-> stores holds s obj idx.
  Proof.
    intros E. unfold has, stores. rewrite <- E, existsb_exists. split.
    - intros ([a b] & H & P). unfold piece_eqb in P. simpl in P. apply andb_true_iff in P. destruct P as [P Q].
      apply Nat.eqb_eq in P, Q. subst. exact H.
    - intros H. exists (obj, idx). split; [exact H|]. unfold piece_eqb. simpl. rewrite !Nat.eqb_refl. reflexivity.
  Qed.

  (** Requests only change in ways that keep what they are about. *)
  Definition same (q q' : request) : Prop :=
    rq_obj q' = rq_obj q /\ rq_shards q' = rq_shards q /\ rq_asked q <= rq_asked q' /\
    (rq_phase q <> Open -> rq_phase q' <> Open) /\
    (forall b, rq_phase q = Gone b -> rq_phase q' = Gone b) /\
    (forall b, rq_phase q = Ended b -> rq_phase q' = Ended b \/ rq_phase q' = Gone b).

  Lemma same_refl q : same q q.
  Proof. repeat split; auto. Qed.

  Lemma settle_obj q : rq_obj (settle q) = rq_obj q.
  Proof. unfold settle. destruct (_ && _); reflexivity. Qed.
  Lemma settle_shards q : rq_shards (settle q) = rq_shards q.
  Proof. unfold settle. destruct (_ && _); reflexivity. Qed.
  Lemma settle_asked q : rq_asked (settle q) = rq_asked q.
  Proof. unfold settle. destruct (_ && _); reflexivity. Qed.
  Lemma settle_cnt q : rq_cnt (settle q) = rq_cnt q.
  Proof. unfold settle. destruct (_ && _); reflexivity. Qed.
  Lemma settle_events q : rq_events (settle q) = rq_events q.
  Proof. unfold settle. destruct (_ && _); reflexivity. Qed.
  Lemma settle_phase q : rq_phase q = Open ->
    (rq_phase (settle q) = Open /\ ~ (rq_asked q = rq_shards q /\ rq_shards q <= rq_cnt q)) \/
    (rq_phase (settle q) = Ended true /\ rq_asked q = rq_shards q /\ rq_shards q <= rq_cnt q).
  Proof.
    intros H. unfold settle. destruct (Nat.eqb_spec (rq_asked q) (rq_shards q)), (Nat.leb_spec (rq_shards q) (rq_cnt q)); simpl;
      [right|left|left|left]; (split; [auto|lia]).
  Qed.

  Lemma is_open_phase q : is_open q = true -> rq_phase q = Open.
  Proof. unfold is_open. destruct (rq_phase q); congruence. Qed.

  Lemma step_requests st e r q : nth_error (st_requests st) r = Some q ->
    exists q', nth_error (st_requests (step st e)) r = Some q' /\ same q q'.
  Proof.
    intros H. assert (D : nth_error (st_requests st) r = Some q -> exists q', nth_error (st_requests st) r = Some q' /\ same q q')
      by (intros; exists q; split; [assumption|apply same_refl]).
    assert (U : forall k x y, nth_error (st_requests st) k = Some y -> same y x ->
      exists q', nth_error (update (st_requests st) k x) r = Some q' /\ same q q').
    { intros k x y Hk Hs. destruct (Nat.eq_dec r k) as [->|N0].
      - exists x. rewrite H in Hk. injection Hk as <-. split; [exact (nth_update_eq _ _ _ _ H)|exact Hs].
      - exists q. rewrite nth_update_ne by exact N0. split; [exact H|apply same_refl]. }
    destruct e as [obj n|k b|s|s|s|s j b|k|k|k|k b]; cbn [step].
    - exists q. split; [|apply same_refl]. simpl. rewrite nth_error_app1; [exact H|]. apply nth_error_Some. congruence.
    - destruct (nth_error (st_requests st) k) as [y|] eqn:Hk; [|auto].
      destruct (is_open y && (rq_asked y <? rq_shards y)) eqn:C; [|auto].
      apply andb_true_iff in C. destruct C as [C _]. apply is_open_phase in C.
      destruct b; simpl; refine (U k _ y Hk _);
        (unfold same; rewrite settle_obj, settle_shards, settle_asked; simpl; repeat split; try lia; congruence).
    - destruct (nth_error (st_servers st) s); simpl; auto.
    - destruct (nth_error (st_servers st) s); simpl; auto.
    - destruct (nth_error (st_servers st) s) as [sv|]; [destruct (sv_queue sv)|]; simpl; auto.
    - destruct (nth_error (st_servers st) s) as [sv|]; [|auto].
      destruct (nth_error (sv_busy sv) j) as [m|]; [|auto].
      destruct (nth_error (st_requests st) (q_req m)) as [y|] eqn:Hk; [|simpl; auto].
      destruct (has sv (rq_obj y) (q_idx m) && b); simpl; [|auto].
      refine (U _ _ y Hk _). unfold arrive. destruct (rq_phase y) eqn:P; [|apply same_refl|apply same_refl].
      unfold same. simpl. repeat split; auto; congruence.
    - destruct (nth_error (st_requests st) k) as [y|] eqn:Hk; [|auto].
      destruct (is_open y && (rq_asked y =? rq_shards y)) eqn:C; [|auto].
      apply andb_true_iff in C. destruct C as [C _]. apply is_open_phase in C.
      destruct (rq_events y) as [|[s i] rest]; [auto|]. simpl. refine (U k _ y Hk _).
      unfold same; rewrite settle_obj, settle_shards, settle_asked; simpl; repeat split; try lia; congruence.
    - destruct (nth_error (st_requests st) k) as [y|] eqn:Hk; [|auto].
      destruct (is_open y && (rq_asked y =? rq_shards y)) eqn:C; [|auto].
      apply andb_true_iff in C. destruct C as [C _]. apply is_open_phase in C.
      simpl. refine (U k _ y Hk _). unfold same. simpl. repeat split; auto; congruence.
    - destruct (nth_error (st_requests st) k) as [y|] eqn:Hk; [|auto].
      destruct (is_open y && (rq_asked y =? rq_shards y)) eqn:C; [|auto].
      apply andb_true_iff in C. destruct C as [C _]. apply is_open_phase in C.
      simpl. refine (U k _ y Hk _). unfold same. simpl. repeat split; auto; congruence.
    - destruct (nth_error (st_requests st) k) as [y|] eqn:Hk; [|auto].
      destruct (rq_phase y) as [|res|] eqn:P; [auto| |auto]. simpl. refine (U k _ y Hk _).
      unfold same. simpl. repeat split; auto; try congruence. right. congruence.
  Qed.

  Lemma step_about st e s m : about st holds s m -> about (step st e) holds s m.
  Proof.
    intros (r & H & S0). destruct (step_requests st e _ _ H) as (q' & H' & (O & _)).
    exists q'. split; [exact H'|]. rewrite O. exact S0.
  Qed.

  (** What each event does to the questions and answers. *)
  Lemma step_asked st e : (st_asked (step st e) = st_asked st) \/
    exists r q, nth_error (st_requests st) r = Some q /\ rq_phase q = Open /\ rq_asked q < rq_shards q /\ e = Ask r true /\
      st_asked (step st e) = st_asked st ++ [mk_q r (rq_asked q)] /\
      exists q', nth_error (st_requests (step st e)) r = Some q' /\ rq_asked q' = S (rq_asked q).
  Proof.
    destruct e as [obj n|k b|s|s|s|s j b|k|k|k|k b]; cbn [step]; try (left; reflexivity).
    - destruct (nth_error (st_requests st) k) as [y|] eqn:Hk; [|left; reflexivity].
      destruct (is_open y && (rq_asked y <? rq_shards y)) eqn:C; [|left; reflexivity].
      apply andb_true_iff in C. destruct C as [C D]. apply is_open_phase in C. apply Nat.ltb_lt in D.
      destruct b; [|left; reflexivity]. right. exists k, y. repeat split; auto. eexists. split; [exact (nth_update_eq _ _ _ _ Hk)|].
      rewrite settle_asked. reflexivity.
    - left. destruct (nth_error (st_servers st) s); reflexivity.
    - left. destruct (nth_error (st_servers st) s); reflexivity.
    - left. destruct (nth_error (st_servers st) s) as [sv|]; [destruct (sv_queue sv)|]; reflexivity.
    - left. destruct (nth_error (st_servers st) s) as [sv|]; [|reflexivity].
      destruct (nth_error (sv_busy sv) j) as [m|]; [|reflexivity].
      destruct (nth_error (st_requests st) (q_req m)) as [y|]; [|reflexivity].
      destruct (has sv (rq_obj y) (q_idx m) && b); reflexivity.
    - left. destruct (nth_error (st_requests st) k) as [y|]; [|reflexivity].
      destruct (_ && _); [|reflexivity]. destruct (rq_events y) as [|[s i] rest]; reflexivity.
    - left. destruct (nth_error (st_requests st) k) as [y|]; [|reflexivity]. destruct (_ && _); reflexivity.
    - left. destruct (nth_error (st_requests st) k) as [y|]; [|reflexivity]. destruct (_ && _); reflexivity.
    - left. destruct (nth_error (st_requests st) k) as [y|]; [|reflexivity]. destruct (rq_phase y); reflexivity.
  Qed.

  Lemma step_answers st e : (st_answers (step st e) = st_answers st) \/
    exists s j sv m q, e = Answer s j true /\ nth_error (st_servers st) s = Some sv /\ nth_error (sv_busy sv) j = Some m /\
      nth_error (st_requests st) (q_req m) = Some q /\ has sv (rq_obj q) (q_idx m) = true /\
      step st e = mk_state (update (st_servers st) s (mk_server (sv_has sv) (sv_watch sv) (sv_queue sv) (without (sv_busy sv) j)))
        (update (st_requests st) (q_req m) (arrive s (q_idx m) q)) (q_req m :: st_keys st) (st_asked st) (st_answers st ++ [(s, m)]).
  Proof.
    destruct e as [obj n|k b|s|s|s|s j b|k|k|k|k b]; cbn [step]; try (left; reflexivity).
    - left. destruct (nth_error (st_requests st) k) as [y|]; [|reflexivity]. destruct (_ && _); [destruct b|]; reflexivity.
    - left. destruct (nth_error (st_servers st) s); reflexivity.
    - left. destruct (nth_error (st_servers st) s); reflexivity.
    - left. destruct (nth_error (st_servers st) s) as [sv|]; [destruct (sv_queue sv)|]; reflexivity.
    - destruct (nth_error (st_servers st) s) as [sv|] eqn:E1; [|left; reflexivity].
      destruct (nth_error (sv_busy sv) j) as [m|] eqn:E2; [|left; reflexivity].
      destruct (nth_error (st_requests st) (q_req m)) as [y|] eqn:E3; [|left; reflexivity].
      destruct (has sv (rq_obj y) (q_idx m)) eqn:E4; [destruct b; simpl|]; [|left; reflexivity|left; reflexivity].
      right. exists s, j, sv, m, y. repeat split; auto.
    - left. destruct (nth_error (st_requests st) k) as [y|]; [|reflexivity].
      destruct (_ && _); [|reflexivity]. destruct (rq_events y) as [|[s i] rest]; reflexivity.
    - left. destruct (nth_error (st_requests st) k) as [y|]; [|reflexivity]. destruct (_ && _); reflexivity.
    - left. destruct (nth_error (st_requests st) k) as [y|]; [|reflexivity]. destruct (_ && _); reflexivity.
    - left. destruct (nth_error (st_requests st) k) as [y|]; [|reflexivity]. destruct (rq_phase y); reflexivity.
  Qed.

  Lemma asked_step st e : asked_ok st -> asked_ok (step st e).
  Proof.
    intros [A B]. destruct (step_asked st e) as [E|(r & q & H & _ & _ & _ & E & q' & H' & L)].
    - split; rewrite E; [exact A|]. intros m Hm. destruct (B m Hm) as (q & Hq & L).
      destruct (step_requests st e _ _ Hq) as (q' & Hq' & (_ & _ & L' & _)). exists q'. split; [exact Hq'|lia].
    - split; rewrite E.
      + apply NoDup_app_iff_one. split; [exact A|]. intros Hin. destruct (B _ Hin) as (q0 & Hq & L0). simpl in *.
        rewrite H in Hq. injection Hq as <-. lia.
      + intros m Hm. apply in_app_or in Hm. destruct Hm as [Hm|[<-|[]]].
        * destruct (B m Hm) as (q0 & Hq & L0). destruct (step_requests st e _ _ Hq) as (q1 & Hq1 & (_ & _ & L' & _)).
          exists q1. split; [exact Hq1|lia].
        * exists q'. simpl. split; [exact H'|lia].
  Qed.

  (** How the counts of server [s] change. *)
  Lemma deliver_has m sv : sv_has (deliver m sv) = sv_has sv.
  Proof. unfold deliver. destruct (sv_watch sv); reflexivity. Qed.

  Definition held st s m sv := ca s m (st_answers st) + cq m (sv_busy sv) + cq m (sv_queue sv).

  (** One step at one server: it may only lose questions, and loses none it stores a piece for
      unless its watch stops or a put fails. *)
  Lemma server_step st e s sv : nth_error (st_servers st) s = Some sv -> sv_has sv = nth s holds [] ->
    exists sv', nth_error (st_servers (step st e)) s = Some sv' /\ sv_has sv' = sv_has sv /\
      (forall m, held (step st e) s m sv' + cq m (st_asked st) <= held st s m sv + cq m (st_asked (step st e))) /\
      (sv_watch sv = true -> e <> Stopped s -> sv_watch sv' = true) /\
      (sv_watch sv = true -> e <> Stopped s -> (forall j, e <> Answer s j false) ->
       forall m, about st holds s m -> held (step st e) s m sv' + cq m (st_asked st) = held st s m sv + cq m (st_asked (step st e))).
  Proof.
    intros H Hh. unfold held.
    assert (D : exists sv', nth_error (st_servers st) s = Some sv' /\ sv_has sv' = sv_has sv /\
      (forall m, ca s m (st_answers st) + cq m (sv_busy sv') + cq m (sv_queue sv') + cq m (st_asked st) <=
        ca s m (st_answers st) + cq m (sv_busy sv) + cq m (sv_queue sv) + cq m (st_asked st)) /\
      (sv_watch sv = true -> e <> Stopped s -> sv_watch sv' = true) /\
      (sv_watch sv = true -> e <> Stopped s -> (forall j, e <> Answer s j false) ->
       forall m, about st holds s m -> ca s m (st_answers st) + cq m (sv_busy sv') + cq m (sv_queue sv') + cq m (st_asked st) =
        ca s m (st_answers st) + cq m (sv_busy sv) + cq m (sv_queue sv) + cq m (st_asked st))).
    { exists sv. repeat split; auto. }
    destruct e as [obj n|k b|k|k|k|k j b|k|k|k|k b]; cbn [step].
    - exact D.
    - destruct (nth_error (st_requests st) k) as [y|] eqn:Hk; [|exact D].
      destruct (is_open y && (rq_asked y <? rq_shards y)) eqn:C; [|exact D].
      destruct b; [|exact D]. cbn [st_servers st_answers st_asked].
      exists (deliver (mk_q k (rq_asked y)) sv). rewrite nth_error_map, H, deliver_has. split; [reflexivity|]. split; [reflexivity|].
      split; [|split].
      + intros m. rewrite cq_app. unfold deliver. destruct (sv_watch sv); cbn [sv_busy sv_queue]; rewrite ?cq_app; lia.
      + intros W _. unfold deliver. rewrite W. reflexivity.
      + intros W _ _ m _. rewrite cq_app. unfold deliver. rewrite W. cbn [sv_busy sv_queue]. rewrite cq_app. lia.
    - destruct (nth_error (st_servers st) k) as [y|] eqn:Hk; [|exact D]. cbn [st_servers st_answers st_asked].
      destruct (Nat.eq_dec s k) as [->|N0]; [|rewrite nth_update_ne by exact N0; exact D].
      rewrite H in Hk. injection Hk as <-. eexists. split; [exact (nth_update_eq _ _ _ _ H)|]. split; [reflexivity|].
      cbn [sv_busy sv_queue]. split; [|split; intros; congruence]. intros m. cbn [cq count_occ]. unfold cq. simpl. lia.
    - destruct (nth_error (st_servers st) k) as [y|] eqn:Hk; [|exact D]. cbn [st_servers st_answers st_asked].
      destruct (Nat.eq_dec s k) as [->|N0]; [|rewrite nth_update_ne by exact N0; exact D].
      rewrite H in Hk. injection Hk as <-. eexists. split; [exact (nth_update_eq _ _ _ _ H)|]. split; [reflexivity|].
      cbn [sv_busy sv_queue sv_watch]. repeat split; auto.
    - destruct (nth_error (st_servers st) k) as [y|] eqn:Hk; [|exact D]. destruct (sv_queue y) as [|m0 rest] eqn:Q; [exact D|].
      cbn [st_servers st_answers st_asked].
      destruct (Nat.eq_dec s k) as [->|N0]; [|rewrite nth_update_ne by exact N0; exact D].
      rewrite H in Hk. injection Hk as <-. eexists. split; [exact (nth_update_eq _ _ _ _ H)|]. split; [reflexivity|].
      cbn [sv_busy sv_queue sv_watch]. rewrite Q.
      split; [|split; [auto|]]; intros; rewrite cq_app, cq_one, cq_cons; lia.
    - destruct (nth_error (st_servers st) k) as [y|] eqn:Hk; [|exact D].
      destruct (nth_error (sv_busy y) j) as [m0|] eqn:Hj; [|exact D].
      destruct (nth_error (st_requests st) (q_req m0)) as [x|] eqn:Hx.
      + destruct (has y (rq_obj x) (q_idx m0)) eqn:Ha.
        * destruct b; simpl andb; cbn [st_servers st_answers st_asked].
          -- destruct (Nat.eq_dec s k) as [->|N0].
             ++ rewrite H in Hk. injection Hk as <-. eexists. split; [exact (nth_update_eq _ _ _ _ H)|]. split; [reflexivity|].
                cbn [sv_busy sv_queue sv_watch]. split; [|split; [auto|]]; intros; rewrite ca_app, ca_one, (cq_without _ _ _ m Hj);
                  destruct (Nat.eq_dec k k); try congruence; lia.
             ++ exists sv. rewrite nth_update_ne by exact N0. split; [exact H|]. split; [reflexivity|].
                split; [|split; [auto|]]; intros; rewrite ca_app, ca_one; destruct (Nat.eq_dec k s); try congruence; lia.
          -- destruct (Nat.eq_dec s k) as [->|N0]; [|rewrite nth_update_ne by exact N0; exact D].
             rewrite H in Hk. injection Hk as <-. eexists. split; [exact (nth_update_eq _ _ _ _ H)|]. split; [reflexivity|].
             cbn [sv_busy sv_queue sv_watch]. split; [|split; [auto|]].
             ++ intros m. rewrite (cq_without _ _ _ m Hj). lia.
             ++ intros _ _ Hf. exfalso. exact (Hf j eq_refl).
        * simpl andb; cbn [st_servers st_answers st_asked].
          destruct (Nat.eq_dec s k) as [->|N0]; [|rewrite nth_update_ne by exact N0; exact D].
          rewrite H in Hk. injection Hk as <-. eexists. split; [exact (nth_update_eq _ _ _ _ H)|]. split; [reflexivity|].
          cbn [sv_busy sv_queue sv_watch]. split; [|split; [auto|]].
          -- intros m. rewrite (cq_without _ _ _ m Hj). lia.
          -- intros _ _ _ m (r0 & R1 & R2). rewrite (cq_without _ _ _ m Hj). destruct (q_dec m0 m) as [->|]; [|lia].
             rewrite Hx in R1. injection R1 as <-. apply (has_stores k sv) in R2; [congruence|exact Hh].
      + cbn [st_servers st_answers st_asked].
        destruct (Nat.eq_dec s k) as [->|N0]; [|rewrite nth_update_ne by exact N0; exact D].
        rewrite H in Hk. injection Hk as <-. eexists. split; [exact (nth_update_eq _ _ _ _ H)|]. split; [reflexivity|].
        cbn [sv_busy sv_queue sv_watch]. split; [|split; [auto|]].
        * intros m. rewrite (cq_without _ _ _ m Hj). lia.
        * intros _ _ _ m (r0 & R1 & R2). rewrite (cq_without _ _ _ m Hj). destruct (q_dec m0 m) as [->|]; [|lia]. congruence.
    - destruct (nth_error (st_requests st) k) as [y|]; [|exact D].
      destruct (_ && _); [|exact D]. destruct (rq_events y) as [|[s0 i] rest]; exact D.
    - destruct (nth_error (st_requests st) k) as [y|]; [|exact D]. destruct (_ && _); exact D.
    - destruct (nth_error (st_requests st) k) as [y|]; [|exact D]. destruct (_ && _); exact D.
    - destruct (nth_error (st_requests st) k) as [y|]; [|exact D]. destruct (rq_phase y); exact D.
  Qed.

  Definition got (st : state) (r : nat) : nat := length (filter (fun a : nat * question => q_req (snd a) =? r) (st_answers st)).

  Definition fits (n : nat) (q : request) : Prop :=
    rq_asked q <= rq_shards q /\
    (rq_phase q = Open -> ~ (rq_asked q = rq_shards q /\ rq_shards q <= rq_cnt q)) /\
    (rq_phase q = Ended true \/ rq_phase q = Gone true -> rq_asked q = rq_shards q /\ rq_shards q <= rq_cnt q) /\
    rq_cnt q + length (rq_events q) <= n /\ (rq_phase q = Open -> rq_cnt q + length (rq_events q) = n).

  Lemma settle_fits n q : rq_phase q = Open -> rq_asked q <= rq_shards q -> rq_cnt q + length (rq_events q) = n ->
    fits n (settle q).
  Proof.
    intros P A B. unfold fits. rewrite settle_asked, settle_shards, settle_cnt, settle_events.
    destruct (settle_phase q P) as [[E N0]|[E N0]]; rewrite E.
    - repeat split; auto; try lia; destruct H; discriminate.
    - repeat split; auto; try lia; try discriminate; apply N0.
  Qed.

  Lemma requests_step st e : ok st -> forall r q', nth_error (st_requests (step st e)) r = Some q' -> fits (got (step st e) r) q'.
  Proof.
    intros (HR & (_ & HA) & HS & HW). change (forall r q, nth_error (st_requests st) r = Some q -> fits (got st r) q) in HR.
    assert (U : forall k x, (forall y, nth_error (st_requests st) k = Some y -> fits (got st k) x) ->
      forall r q', nth_error (update (st_requests st) k x) r = Some q' -> fits (got st r) q').
    { intros k x Hx r q' H. destruct (Nat.eq_dec r k) as [->|N0].
      - destruct (nth_error (st_requests st) k) as [y|] eqn:E.
        + rewrite (nth_update_eq _ _ _ _ E) in H. injection H as <-. exact (Hx y eq_refl).
        + apply nth_error_None in E. assert (k < length (update (st_requests st) k x)) by (apply nth_error_Some; congruence).
          rewrite update_length in H0. lia.
      - rewrite nth_update_ne in H by exact N0. exact (HR r q' H). }
    destruct (step_answers st e) as [EA|(s & j & sv & m & q & Ee & E1 & E2 & E3 & E4 & ->)].
    2: { intros r q' H. cbn [st_requests] in H. unfold got. cbn [st_answers]. rewrite filter_app, app_length. cbn [filter snd].
      fold (got st r). pose proof (HR _ _ E3) as (F1 & F2 & F3 & F4 & F5).
      destruct (Nat.eq_dec r (q_req m)) as [->|N0].
      - rewrite (nth_update_eq _ _ _ _ E3) in H. injection H as <-. rewrite Nat.eqb_refl. cbn [length].
        unfold arrive. destruct (rq_phase q) eqn:P; unfold fits; cbn [rq_asked rq_shards rq_cnt rq_events rq_phase]; rewrite ?app_length; cbn [length];
          rewrite ?P; repeat split; auto; try lia; try (intros; specialize (F5 eq_refl); lia);
          try (destruct H as [H|H]; discriminate); try (intros; discriminate); try (apply F3; auto).
      - rewrite nth_update_ne in H by exact N0. destruct (Nat.eqb_spec (q_req m) r); [congruence|]. cbn [length]. rewrite Nat.add_0_r.
        exact (HR _ _ H). }
    intros r q' H. unfold got. rewrite EA. fold (got st r). revert EA r q' H.
    destruct e as [obj n|k b|s|s|s|s j b|k|k|k|k b]; cbn [step]; intros EA.
    - intros r q' H. cbn [st_requests] in H. destruct (Nat.lt_ge_cases r (length (st_requests st))) as [L|L].
      + rewrite nth_error_app1 in H by exact L. exact (HR _ _ H).
      + rewrite nth_error_app2 in H by exact L. destruct (r - length (st_requests st)) as [|d] eqn:D; [|destruct d; discriminate].
        injection H as <-. assert (r = length (st_requests st)) as -> by lia.
        apply settle_fits; [reflexivity|cbn; lia|]. cbn [rq_cnt rq_events length]. symmetry. unfold got.
        destruct (filter (fun a : nat * question => q_req (snd a) =? length (st_requests st)) (st_answers st)) as [|[s0 m0] rest] eqn:Ef; [reflexivity|].
        exfalso. assert (In (s0, m0) (filter (fun a : nat * question => q_req (snd a) =? length (st_requests st)) (st_answers st))) as Hin
          by (rewrite Ef; left; reflexivity).
        apply filter_In in Hin. destruct Hin as [Hin Hq]. apply Nat.eqb_eq in Hq. simpl in Hq.
        destruct (HW _ _ Hin) as (_ & y & Hy & _). rewrite Hq in Hy.
        assert (length (st_requests st) < length (st_requests st)) by (apply nth_error_Some; congruence). lia.
    - destruct (nth_error (st_requests st) k) as [y|] eqn:Hk; [|exact HR].
      destruct (is_open y && (rq_asked y <? rq_shards y)) eqn:C; [|exact HR].
      apply andb_true_iff in C. destruct C as [C D]. apply is_open_phase in C. apply Nat.ltb_lt in D.
      destruct (HR _ _ Hk) as (F1 & F2 & F3 & F4 & F5).
      destruct b; cbn [st_requests]; apply U; intros y0 Hy; apply settle_fits; cbn; auto; lia.
    - destruct (nth_error (st_servers st) s); exact HR.
    - destruct (nth_error (st_servers st) s); exact HR.
    - destruct (nth_error (st_servers st) s) as [sv|]; [destruct (sv_queue sv)|]; exact HR.
    - destruct (nth_error (st_servers st) s) as [sv|]; [|exact HR].
      destruct (nth_error (sv_busy sv) j) as [m|]; [|exact HR].
      destruct (nth_error (st_requests st) (q_req m)) as [y|] eqn:Hk; [|exact HR].
      destruct (has sv (rq_obj y) (q_idx m) && b); [|exact HR].
      cbn [st_answers] in EA. apply (f_equal (@length _)) in EA. rewrite app_length in EA. cbn [length] in EA. lia.
    - destruct (nth_error (st_requests st) k) as [y|] eqn:Hk; [|exact HR].
      destruct (is_open y && (rq_asked y =? rq_shards y)) eqn:C; [|exact HR].
      apply andb_true_iff in C. destruct C as [C D]. apply is_open_phase in C. apply Nat.eqb_eq in D.
      destruct (HR _ _ Hk) as (F1 & F2 & F3 & F4 & F5).
      destruct (rq_events y) as [|[s i] rest] eqn:Ev; [exact HR|]. cbn [st_requests]. apply U. intros y0 Hy.
      apply settle_fits; cbn; auto. rewrite <- (F5 C). cbn [length]. lia.
    - destruct (nth_error (st_requests st) k) as [y|] eqn:Hk; [|exact HR].
      destruct (is_open y && (rq_asked y =? rq_shards y)) eqn:C; [|exact HR].
      destruct (HR _ _ Hk) as (F1 & F2 & F3 & F4 & F5). cbn [st_requests]. apply U. intros y0 Hy.
      unfold fits. cbn. repeat split; auto; try (intros; discriminate); destruct H; discriminate.
    - destruct (nth_error (st_requests st) k) as [y|] eqn:Hk; [|exact HR].
      destruct (is_open y && (rq_asked y =? rq_shards y)) eqn:C; [|exact HR].
      destruct (HR _ _ Hk) as (F1 & F2 & F3 & F4 & F5). cbn [st_requests]. apply U. intros y0 Hy.
      unfold fits. cbn. repeat split; auto; try (intros; discriminate); destruct H; discriminate.
    - destruct (nth_error (st_requests st) k) as [y|] eqn:Hk; [|exact HR].
      destruct (rq_phase y) as [|res|] eqn:P; [exact HR| |exact HR].
      destruct (HR _ _ Hk) as (F1 & F2 & F3 & F4 & F5). cbn [st_requests]. apply U. intros y0 Hy.
      unfold fits. cbn. rewrite P in F3. repeat split; auto; try (intros; discriminate);
        (apply F3; left; destruct H as [H|H]; [discriminate|injection H as ->; reflexivity]).
  Qed.

  Lemma step_length st e : length (st_servers (step st e)) = length (st_servers st).
  Proof.
    destruct e as [obj n|k b|s|s|s|s j b|k|k|k|k b]; cbn [step]; try reflexivity.
    - destruct (nth_error (st_requests st) k) as [y|]; [|reflexivity]. destruct (_ && _); [destruct b|]; try reflexivity. apply map_length.
    - destruct (nth_error (st_servers st) s); [apply update_length|reflexivity].
    - destruct (nth_error (st_servers st) s); [apply update_length|reflexivity].
    - destruct (nth_error (st_servers st) s) as [sv|]; [destruct (sv_queue sv)|]; try reflexivity. apply update_length.
    - destruct (nth_error (st_servers st) s) as [sv|]; [|reflexivity].
      destruct (nth_error (sv_busy sv) j) as [m|]; [|reflexivity].
      destruct (nth_error (st_requests st) (q_req m)) as [y|]; [destruct (_ && _)|]; apply update_length.
    - destruct (nth_error (st_requests st) k) as [y|]; [|reflexivity].
      destruct (_ && _); [|reflexivity]. destruct (rq_events y) as [|[s i] rest]; reflexivity.
    - destruct (nth_error (st_requests st) k) as [y|]; [|reflexivity]. destruct (_ && _); reflexivity.
    - destruct (nth_error (st_requests st) k) as [y|]; [|reflexivity]. destruct (_ && _); reflexivity.
    - destruct (nth_error (st_requests st) k) as [y|]; [|reflexivity]. destruct (rq_phase y); reflexivity.
  Qed.

  Lemma ok_step st e : ok st -> ok (step st e).
  Proof.
    intros H. pose proof (requests_step st e H) as HR'. destruct H as (HR & HA & (HL & HS) & HW).
    split; [exact HR'|]. split; [apply asked_step; exact HA|]. split.
    - split; [rewrite step_length; exact HL|]. intros s sv' Hs'.
      assert (s < length (st_servers st)) as L by (rewrite <- (step_length st e); apply nth_error_Some; congruence).
      destruct (nth_error (st_servers st) s) as [sv|] eqn:Hs; [|apply nth_error_None in Hs; lia].
      destruct (HS s sv Hs) as [Hh Hc]. destruct (server_step st e s sv Hs Hh) as (sv1 & H1 & H2 & H3 & _).
      rewrite Hs' in H1. injection H1 as <-. split; [congruence|].
      intros m. specialize (Hc m). specialize (H3 m). unfold held in H3. lia.
    - intros s m Hin. destruct (step_answers st e) as [EA|(s0 & j & sv & m0 & q & _ & E1 & _ & E3 & E4 & Es)].
      + rewrite EA in Hin. destruct (HW s m Hin) as [W1 W2]. split; [exact W1|apply step_about; exact W2].
      + assert (Hin' : In (s, m) (st_answers st ++ [(s0, m0)])) by (rewrite Es in Hin; exact Hin).
        apply in_app_or in Hin'. destruct Hin' as [Hin'|[Eq|[]]].
        * destruct (HW s m Hin') as [W1 W2]. split; [exact W1|apply step_about; exact W2].
        * injection Eq as <- <-. split; [rewrite <- HL; apply nth_error_Some; congruence|].
          apply step_about. exists q. split; [exact E3|]. destruct (HS _ _ E1) as [Hh _]. apply (has_stores s0 sv); assumption.
  Qed.

  Lemma start_ok : ok (start holds).
  Proof.
    split; [|split; [|split]].
    - intros [|r] q H; discriminate H.
    - split; [constructor|intros m []].
    - split; [apply map_length|]. intros s sv H. simpl in H. rewrite nth_error_map in H.
      destruct (nth_error holds s) as [h|] eqn:E; [|discriminate]. injection H as <-. split; [|intros m; unfold ca, cq; simpl; lia].
      symmetry. apply nth_error_nth. exact E.
    - intros s m [].
  Qed.

  Lemma ok_run es : forall st, ok st -> ok (run st es).
  Proof. induction es as [|e es IH]; intros st H; [exact H|]. apply IH, ok_step, H. Qed.

  Lemma run_snoc es e st : run st (es ++ [e]) = step (run st es) e.
  Proof. unfold run. rewrite fold_left_app. reflexivity. Qed.

  (** ** Nothing is lost at a steady server *)

  Lemma steady_snoc s es e : steady s (es ++ [e]) -> steady s es /\ e <> Stopped s /\ forall j, e <> Answer s j false.
  Proof.
    intros [A B]. split; [split|split].
    - intros H. apply A, in_or_app. left. exact H.
    - intros j H. apply (B j), in_or_app. left. exact H.
    - intros ->. apply A, in_or_app. right. left. reflexivity.
    - intros j ->. apply (B j), in_or_app. right. left. reflexivity.
  Qed.

  (** Requests do not become about something by a step if they existed. *)
  Lemma about_back st e s m q : nth_error (st_requests st) (q_req m) = Some q -> about (step st e) holds s m -> about st holds s m.
  Proof.
    intros Hq (q' & Hq' & S0). destruct (step_requests st e _ _ Hq) as (q1 & H1 & (O & _)).
    rewrite Hq' in H1. injection H1 as <-. exists q. split; [exact Hq|]. rewrite <- O. exact S0.
  Qed.

  Lemma steady_inv s es : s < length holds -> steady s es ->
    let st := run (start holds) es in
    exists sv, nth_error (st_servers st) s = Some sv /\ sv_watch sv = true /\
      forall m, about st holds s m -> held st s m sv = cq m (st_asked st).
  Proof.
    intros L. induction es as [|e es IH] using rev_ind; intros St.
    - destruct (nth_error holds s) as [h|] eqn:E; [|apply nth_error_None in E; lia].
      eexists. simpl. rewrite nth_error_map, E. split; [reflexivity|]. split; [reflexivity|]. intros m _. reflexivity.
    - cbv zeta. rewrite run_snoc. destruct (steady_snoc _ _ _ St) as (St' & N1 & N2).
      destruct (IH St') as (sv & H1 & H2 & H3). set (st := run (start holds) es) in *.
      assert (K : ok st) by (apply ok_run, start_ok). pose proof K as (HR & (_ & HA) & (HL & HS) & HW).
      destruct (HS _ _ H1) as [Hh Hc].
      destruct (server_step st e s sv H1 Hh) as (sv' & S1 & S2 & S3 & S4 & S5).
      exists sv'. split; [exact S1|]. split; [exact (S4 H2 N1)|]. intros m Hm.
      destruct (nth_error (st_requests st) (q_req m)) as [q|] eqn:Hq.
      + pose proof (about_back st e s m q Hq Hm) as Hm0. specialize (S5 H2 N1 N2 m Hm0). specialize (H3 m Hm0). lia.
      + assert (Z : cq m (st_asked (step st e)) = 0).
        { apply count_occ_not_In. intros Hin. destruct (step_asked st e) as [E|(r & q & Hr & _ & _ & _ & E & _)]; rewrite E in Hin.
          - destruct (HA m Hin) as (q & Hq' & _). congruence.
          - apply in_app_or in Hin. destruct Hin as [Hin|[<-|[]]]; [destruct (HA m Hin) as (q' & Hq' & _); congruence|].
            simpl in Hq. congruence. }
        specialize (S3 m). specialize (Hc m). unfold held in S3 |- *.
        assert (cq m (st_asked st) = 0).
        { apply count_occ_not_In. intros Hin. destruct (HA m Hin) as (q & Hq' & _). congruence. }
        lia.
  Qed.

  Lemma ca_in s m l : In (s, m) l <-> 0 < ca s m l.
  Proof. unfold ca. rewrite (count_occ_In a_dec). lia. Qed.
  Lemma cq_in m l : In m l <-> 0 < cq m l.
  Proof. unfold cq. rewrite (count_occ_In q_dec). lia. Qed.

  Lemma asked_once st m : ok st -> cq m (st_asked st) <= 1.
  Proof. intros (_ & (N0 & _) & _). apply (proj1 (NoDup_count_occ q_dec _) N0). Qed.

  Lemma answers_nodup st : ok st -> NoDup (st_answers st).
  Proof.
    intros K. apply (NoDup_count_occ a_dec). intros [s m].
    destruct (in_dec a_dec (s, m) (st_answers st)) as [Hin|Hin]; [|apply (count_occ_not_In a_dec) in Hin; lia].
    pose proof (asked_once st m K) as A. destruct K as (_ & _ & (HL & HS) & HW). destruct (HW _ _ Hin) as [L _].
    destruct (nth_error (st_servers st) s) as [sv|] eqn:Hs; [|apply nth_error_None in Hs; lia].
    destruct (HS _ _ Hs) as [_ Hc]. specialize (Hc m). fold (ca s m (st_answers st)). lia.
  Qed.

  Lemma answers_asked st s m : ok st -> In (s, m) (st_answers st) -> In m (st_asked st).
  Proof.
    intros (_ & _ & (HL & HS) & HW) Hin. destruct (HW _ _ Hin) as [L _].
    destruct (nth_error (st_servers st) s) as [sv|] eqn:Hs; [|apply nth_error_None in Hs; lia].
    destruct (HS _ _ Hs) as [_ Hc]. specialize (Hc m). apply ca_in in Hin. apply cq_in. lia.
  Qed.

  (** ** A patient request *)

  Lemma patient_snoc r es e : patient r (es ++ [e]) -> patient r es /\ e <> Ask r false /\ e <> Late r /\ e <> Broken r.
  Proof.
    intros (A & B & C). split; [split; [|split]; intros H; [apply A|apply B|apply C]; apply in_or_app; left; exact H|].
    split; [|split]; intros ->; [apply A|apply B|apply C]; apply in_or_app; right; left; reflexivity.
  Qed.

  Definition failed (q : request) : Prop := rq_phase q = Ended false \/ rq_phase q = Gone false.

  Lemma patient_step st e r q q' : nth_error (st_requests st) r = Some q ->
    e <> Ask r false -> e <> Late r -> e <> Broken r -> nth_error (st_requests (step st e)) r = Some q' ->
    (~ failed q -> ~ failed q') /\
    (rq_asked q' = rq_asked q \/ (rq_asked q' = S (rq_asked q) /\ In (mk_q r (rq_asked q)) (st_asked (step st e)))).
  Proof.
    intros H N1 N2 N3.
    assert (D : nth_error (st_requests st) r = Some q' -> (~ failed q -> ~ failed q') /\
       (rq_asked q' = rq_asked q \/ (rq_asked q' = S (rq_asked q) /\ In (mk_q r (rq_asked q)) (st_asked (step st e))))).
    { intros H'. rewrite H in H'. injection H' as <-. split; auto. }
    assert (U : forall k x y, nth_error (st_requests st) k = Some y ->
      (k = r -> (~ failed q -> ~ failed x) /\
        (rq_asked x = rq_asked q \/ (rq_asked x = S (rq_asked q) /\ In (mk_q r (rq_asked q)) (st_asked (step st e))))) ->
      nth_error (update (st_requests st) k x) r = Some q' -> (~ failed q -> ~ failed q') /\
       (rq_asked q' = rq_asked q \/ (rq_asked q' = S (rq_asked q) /\ In (mk_q r (rq_asked q)) (st_asked (step st e))))).
    { intros k x y Hk Hx H'. destruct (Nat.eq_dec r k) as [->|N0].
      - rewrite (nth_update_eq _ _ _ _ Hk) in H'. injection H' as <-. apply Hx. reflexivity.
      - rewrite nth_update_ne in H' by exact N0. exact (D H'). }
    assert (SF : forall x, rq_phase x = Open -> ~ failed (settle x)).
    { intros x P F. unfold failed in F. destruct (settle_phase x P) as [[E _]|[E _]]; rewrite E in F; destruct F; discriminate. }
    destruct e as [obj n|k b|s|s|s|s j b|k|k|k|k b]; cbn [step] in *.
    - intros H'. apply D. simpl in H'. rewrite nth_error_app1 in H'; [exact H'|]. apply nth_error_Some. congruence.
    - destruct (nth_error (st_requests st) k) as [y|] eqn:Hk; [|exact D].
      destruct (is_open y && (rq_asked y <? rq_shards y)) eqn:C; [|exact D].
      destruct b; cbn [st_requests st_asked] in *; apply (U k _ y Hk); intros ->.
      + rewrite H in Hk. injection Hk as <-. rewrite settle_asked. split; [intros _; apply SF; reflexivity|].
        right. split; [reflexivity|]. apply in_or_app. right. left. reflexivity.
      + congruence.
    - destruct (nth_error (st_servers st) s); exact D.
    - destruct (nth_error (st_servers st) s); exact D.
    - destruct (nth_error (st_servers st) s) as [sv|]; [destruct (sv_queue sv)|]; exact D.
    - destruct (nth_error (st_servers st) s) as [sv|]; [|exact D].
      destruct (nth_error (sv_busy sv) j) as [m|]; [|exact D].
      destruct (nth_error (st_requests st) (q_req m)) as [y|] eqn:Hk; [|exact D].
      destruct (has sv (rq_obj y) (q_idx m) && b); [|exact D]. cbn [st_requests st_asked] in *.
      apply (U _ _ y Hk). intros E. rewrite E, H in Hk. injection Hk as <-. unfold arrive.
      destruct (rq_phase q) eqn:P; cbn; [|auto|auto]. split; [|auto]. intros _ [F|F]; discriminate F.
    - destruct (nth_error (st_requests st) k) as [y|] eqn:Hk; [|exact D].
      destruct (is_open y && (rq_asked y =? rq_shards y)) eqn:C; [|exact D].
      destruct (rq_events y) as [|[s i] rest]; [exact D|]. cbn [st_requests st_asked] in *.
      apply (U k _ y Hk). intros ->. rewrite H in Hk. injection Hk as <-. rewrite settle_asked.
      split; [intros _; apply SF; reflexivity|left; reflexivity].
    - destruct (nth_error (st_requests st) k) as [y|] eqn:Hk; [|exact D].
      destruct (is_open y && (rq_asked y =? rq_shards y)) eqn:C; [|exact D]. cbn [st_requests st_asked] in *.
      apply (U k _ y Hk). congruence.
    - destruct (nth_error (st_requests st) k) as [y|] eqn:Hk; [|exact D].
      destruct (is_open y && (rq_asked y =? rq_shards y)) eqn:C; [|exact D]. cbn [st_requests st_asked] in *.
      apply (U k _ y Hk). congruence.
    - destruct (nth_error (st_requests st) k) as [y|] eqn:Hk; [|exact D].
      destruct (rq_phase y) as [|res|] eqn:P; [exact D| |exact D]. cbn [st_requests st_asked] in *.
      apply (U k _ y Hk). intros ->. rewrite H in Hk. injection Hk as <-. split; [|left; reflexivity].
      intros NF [F|F]; [discriminate F|]. simpl in F. injection F as ->. apply NF. left. exact P.
  Qed.

  Lemma step_asked_mono st e m : In m (st_asked st) -> In m (st_asked (step st e)).
  Proof.
    intros H. destruct (step_asked st e) as [E|(r & q & _ & _ & _ & _ & E & _)]; rewrite E; [exact H|].
    apply in_or_app. left. exact H.
  Qed.

  Lemma new_request st e r q : nth_error (st_requests st) r = None -> nth_error (st_requests (step st e)) r = Some q ->
    ~ failed q /\ rq_asked q = 0.
  Proof.
    intros H.
    assert (U : forall k x, nth_error (update (st_requests st) k x) r = Some q -> ~ failed q /\ rq_asked q = 0).
    { intros k x H'. assert (r < length (update (st_requests st) k x)) as L by (apply nth_error_Some; congruence).
      rewrite update_length in L. apply nth_error_None in H. lia. }
    assert (D : nth_error (st_requests st) r = Some q -> ~ failed q /\ rq_asked q = 0) by congruence.
    destruct e as [obj n|k b|s|s|s|s j b|k|k|k|k b]; cbn [step].
    - cbn [st_requests]. apply nth_error_None in H. rewrite nth_error_app2 by exact H.
      destruct (r - length (st_requests st)) as [|[|d]]; [|discriminate|discriminate].
      intros E. simpl in E. injection E as <-. rewrite settle_asked. split; [|reflexivity].
      intros F. unfold failed in F.
      destruct (settle_phase (mk_request obj n 0 [] 0 (repeat None n) Open) eq_refl) as [[E _]|[E _]]; rewrite E in F; destruct F; discriminate.
    - destruct (nth_error (st_requests st) k) as [y|]; [|exact D]. destruct (_ && _); [destruct b|]; [apply U|apply U|exact D].
    - destruct (nth_error (st_servers st) s); exact D.
    - destruct (nth_error (st_servers st) s); exact D.
    - destruct (nth_error (st_servers st) s) as [sv|]; [destruct (sv_queue sv)|]; exact D.
    - destruct (nth_error (st_servers st) s) as [sv|]; [|exact D].
      destruct (nth_error (sv_busy sv) j) as [m|]; [|exact D].
      destruct (nth_error (st_requests st) (q_req m)) as [y|]; [|exact D].
      destruct (_ && _); [apply U|exact D].
    - destruct (nth_error (st_requests st) k) as [y|]; [|exact D].
      destruct (_ && _); [|exact D]. destruct (rq_events y) as [|[s i] rest]; [exact D|apply U].
    - destruct (nth_error (st_requests st) k) as [y|]; [|exact D]. destruct (_ && _); [apply U|exact D].
    - destruct (nth_error (st_requests st) k) as [y|]; [|exact D]. destruct (_ && _); [apply U|exact D].
    - destruct (nth_error (st_requests st) k) as [y|]; [|exact D]. destruct (rq_phase y); [exact D|apply U|exact D].
  Qed.

  Lemma patient_inv r es : patient r es -> let st := run (start holds) es in
    forall q, nth_error (st_requests st) r = Some q ->
      ~ failed q /\ forall i, i < rq_asked q -> In (mk_q r i) (st_asked st).
  Proof.
    induction es as [|e es IH] using rev_ind; intros P.
    - intros st q H. destruct r; discriminate H.
    - cbv zeta. rewrite run_snoc. destruct (patient_snoc _ _ _ P) as (P' & N1 & N2 & N3).
      set (st := run (start holds) es) in *. intros q' H'.
      destruct (nth_error (st_requests st) r) as [q|] eqn:H.
      + destruct (IH P' q H) as [F A]. destruct (patient_step st e r q q' H N1 N2 N3 H') as [F' A'].
        split; [exact (F' F)|]. intros i Hi. destruct A' as [E|[E Hin]].
        * apply step_asked_mono, A. lia.
        * destruct (Nat.eq_dec i (rq_asked q)) as [->|]; [exact Hin|]. apply step_asked_mono, A. lia.
      + destruct (new_request st e r q' H H') as [F Z]. split; [exact F|]. intros i Hi. lia.
  Qed.

  Lemma found r es q : (forall s, s < length holds -> steady s es) -> patient r es ->
    let st := run (start holds) es in quiet st -> nth_error (st_requests st) r = Some q ->
    (forall i, i < rq_shards q -> exists s, stores holds s (rq_obj q) i) ->
    outcome st r = Some true.
  Proof.
    intros St P st Q Hq Hall. assert (K : ok st) by (apply ok_run, start_ok).
    destruct (patient_inv r es P q Hq) as [F A]. fold st in A.
    unfold outcome. rewrite Hq. destruct (rq_phase q) as [|b|b] eqn:Ph.
    2: { destruct b; [reflexivity|]. exfalso. apply F. left. exact Ph. }
    2: { destruct b; [reflexivity|]. exfalso. apply F. right. exact Ph. }
    exfalso. destruct Q as [Qs Qr]. destruct (Qr q (nth_error_In _ _ Hq)) as [Qa Qe]. specialize (Qe Ph).
    pose proof K as (HR & HA & (HL & HS) & HW). destruct (HR _ _ Hq) as (_ & F2 & _ & _ & F5).
    specialize (F5 Ph). rewrite Qe in F5. cbn [length] in F5. apply (F2 Ph). split; [exact Qa|].
    set (l := filter (fun a : nat * question => q_req (snd a) =? r) (st_answers st)) in *.
    assert (incl (seq 0 (rq_shards q)) (map (fun a : nat * question => q_idx (snd a)) l)) as I0.
    { intros i Hi. apply in_seq in Hi. assert (i < rq_shards q) as Hi' by lia. destruct (Hall i Hi') as [s Hs].
      assert (L : s < length holds).
      { destruct (Nat.lt_ge_cases s (length holds)); [assumption|]. unfold stores in Hs. rewrite nth_overflow in Hs by assumption. destruct Hs. }
      destruct (steady_inv s es L (St s L)) as (sv & H1 & _ & H3). fold st in H1, H3.
      assert (Ab : about st holds s (mk_q r i)) by (exists q; split; assumption).
      specialize (H3 _ Ab). unfold held in H3. destruct (Qs sv (nth_error_In _ _ H1)) as [Q1 Q2]. rewrite Q1, Q2 in H3.
      assert (In (mk_q r i) (st_asked st)) as Hin by (apply A; lia). apply cq_in in Hin.
      assert (In (s, mk_q r i) (st_answers st)) as Hans.
      { apply ca_in. unfold cq in *. simpl in H3. lia. }
      apply in_map_iff. exists (s, mk_q r i). split; [reflexivity|]. apply filter_In. split; [exact Hans|]. apply Nat.eqb_refl. }
    apply NoDup_incl_length in I0; [|apply seq_NoDup]. rewrite seq_length, map_length in I0. lia.
  Qed.

  (** ** What stays behind *)

  (** Once a request has succeeded, no server has an answer for it left to put. *)
  Lemma nothing_left st r q s sv m : ok st -> nth_error (st_requests st) r = Some q ->
    rq_phase q = Ended true \/ rq_phase q = Gone true -> apart holds (rq_obj q) (rq_shards q) ->
    nth_error (st_servers st) s = Some sv -> In m (sv_busy sv) -> q_req m = r -> has sv (rq_obj q) (q_idx m) = true -> False.
  Proof.
    intros K Hq Ph Ap Hs Hm Hr Hh. pose proof (asked_once st m K) as A1. pose proof (answers_nodup st K) as ND.
    pose proof K as (HR & (NA & HA) & (HL & HS) & HW).
    destruct (HR _ _ Hq) as (_ & _ & F3 & F4 & _). destruct (F3 Ph) as [Fa Fc].
    set (l := filter (fun a : nat * question => q_req (snd a) =? r) (st_answers st)) in *.
    destruct (HS _ _ Hs) as [Hhas Hc]. apply (has_stores s sv) in Hh; [|exact Hhas].
    assert (Hans : forall s0 m0, In (s0, m0) l -> q_req m0 = r /\ q_idx m0 < rq_shards q /\ stores holds s0 (rq_obj q) (q_idx m0)).
    { intros s0 m0 Hin. apply filter_In in Hin. destruct Hin as [Hin E]. apply Nat.eqb_eq in E. simpl in E.
      split; [exact E|]. destruct (HW _ _ Hin) as (_ & q0 & Hq0 & S0). rewrite E, Hq in Hq0. injection Hq0 as <-.
      split; [|exact S0]. destruct (HA m0 (answers_asked st s0 m0 K Hin)) as (q1 & Hq1 & L). rewrite E, Hq in Hq1. injection Hq1 as <-. lia. }
    assert (NDi : NoDup (map (fun a : nat * question => q_idx (snd a)) l)).
    { assert (NDl : NoDup l) by (apply NoDup_filter; exact ND). clear -NDl Hans Ap. induction l as [|[s0 m0] l IH]; [constructor|].
      inversion NDl as [|? ? N1 N2]; subst. simpl. constructor; [|apply IH; [intros; apply Hans; right; assumption|exact N2]].
      intros Hin. apply in_map_iff in Hin. destruct Hin as ([s1 m1] & E & Hin). simpl in E.
      destruct (Hans s0 m0 (or_introl eq_refl)) as (B1 & B2 & B3). destruct (Hans s1 m1 (or_intror Hin)) as (C1 & C2 & C3).
      apply N1. rewrite E in C3. assert (s1 = s0) as -> by (apply (Ap (q_idx m0)); assumption).
      destruct m0, m1. simpl in *. subst. exact Hin. }
    assert (incl (seq 0 (rq_shards q)) (map (fun a : nat * question => q_idx (snd a)) l)) as I0.
    { apply NoDup_length_incl; [exact NDi| |].
      - rewrite seq_length, map_length. lia.
      - intros i Hi. apply in_map_iff in Hi. destruct Hi as ([s0 m0] & <- & Hin). apply in_seq. destruct (Hans s0 m0 Hin) as (_ & L & _). simpl. lia. }
    assert (Hma : In m (st_asked st)).
    { apply cq_in. apply cq_in in Hm. specialize (Hc m). lia. }
    destruct (HA m Hma) as (q1 & Hq1 & L). rewrite Hr, Hq in Hq1. injection Hq1 as <-.
    assert (In (q_idx m) (map (fun a : nat * question => q_idx (snd a)) l)) as Hin by (apply I0, in_seq; lia).
    apply in_map_iff in Hin. destruct Hin as ([s0 m0] & E & Hin). simpl in E. destruct (Hans s0 m0 Hin) as (B1 & B2 & B3).
    rewrite E in B3. assert (s0 = s) as -> by (apply (Ap (q_idx m)); [lia|assumption|assumption]).
    assert (m0 = m) as -> by (destruct m0, m; simpl in *; congruence).
    apply filter_In in Hin. destruct Hin as [Hin _]. apply ca_in in Hin. apply cq_in in Hm. specialize (Hc m). lia.
  Qed.

  Lemma step_keys st e r q : ok st -> nth_error (st_requests st) r = Some q -> rq_phase q = Gone true ->
    apart holds (rq_obj q) (rq_shards q) -> ~ In r (st_keys st) -> ~ In r (st_keys (step st e)).
  Proof.
    intros K Hq Ph Ap Hn.
    destruct e as [obj n|k b|s|s|s|s j b|k|k|k|k b]; cbn [step]; try exact Hn.
    - destruct (nth_error (st_requests st) k) as [y|]; [|exact Hn]. destruct (_ && _); [destruct b|]; exact Hn.
    - destruct (nth_error (st_servers st) s); exact Hn.
    - destruct (nth_error (st_servers st) s); exact Hn.
    - destruct (nth_error (st_servers st) s) as [sv|]; [destruct (sv_queue sv)|]; exact Hn.
    - destruct (nth_error (st_servers st) s) as [sv|] eqn:Hs; [|exact Hn].
      destruct (nth_error (sv_busy sv) j) as [m|] eqn:Hj; [|exact Hn].
      destruct (nth_error (st_requests st) (q_req m)) as [y|] eqn:Hy; [|exact Hn].
      destruct (has sv (rq_obj y) (q_idx m) && b) eqn:C; [|exact Hn]. apply andb_true_iff in C. destruct C as [C _].
      cbn [st_keys]. intros [E|Hin]; [|exact (Hn Hin)]. rewrite E, Hq in Hy. injection Hy as <-.
      exact (nothing_left st r q s sv m K Hq (or_intror Ph) Ap Hs (nth_error_In _ _ Hj) E C).
    - destruct (nth_error (st_requests st) k) as [y|]; [|exact Hn].
      destruct (_ && _); [|exact Hn]. destruct (rq_events y) as [|[s i] rest]; exact Hn.
    - destruct (nth_error (st_requests st) k) as [y|]; [|exact Hn]. destruct (_ && _); exact Hn.
    - destruct (nth_error (st_requests st) k) as [y|]; [|exact Hn]. destruct (_ && _); exact Hn.
    - destruct (nth_error (st_requests st) k) as [y|]; [|exact Hn]. destruct (rq_phase y); try exact Hn.
      cbn [st_keys]. destruct b; [|exact Hn]. intros Hin. apply filter_In in Hin. exact (Hn (proj1 Hin)).
  Qed.

  Lemma gone_new st e r q' b : nth_error (st_requests (step st e)) r = Some q' -> rq_phase q' = Gone b ->
    (exists q, nth_error (st_requests st) r = Some q /\ rq_phase q = Gone b /\ rq_obj q' = rq_obj q /\ rq_shards q' = rq_shards q) \/
    exists ok, e = Delete r ok /\ (ok = true -> ~ In r (st_keys (step st e))).
  Proof.
    intros H' P'. destruct (nth_error (st_requests st) r) as [q|] eqn:H.
    2: { exfalso. destruct e as [obj n|k b0|s|s|s|s j b0|k|k|k|k b0]; cbn [step] in H'.
      { cbn [st_requests] in H'. apply nth_error_None in H. rewrite nth_error_app2 in H' by exact H.
        destruct (r - length (st_requests st)) as [|[|d]]; [|discriminate|discriminate]. simpl in H'. injection H' as <-.
        destruct (settle_phase (mk_request obj n 0 [] 0 (repeat None n) Open) eq_refl) as [[E _]|[E _]]; congruence. }
      all: assert (L : nth_error (st_requests st) r <> None -> False) by congruence;
        assert (U : forall k0 x, nth_error (update (st_requests st) k0 x) r = Some q' -> False)
          by (intros k0 x Hx; assert (r < length (update (st_requests st) k0 x)) as L0 by (apply nth_error_Some; congruence);
              rewrite update_length in L0; apply nth_error_None in H; lia).
      - destruct (nth_error (st_requests st) k) as [y|]; [|congruence]. destruct (_ && _); [destruct b0|]; simpl in H'; eauto; congruence.
      - destruct (nth_error (st_servers st) s); simpl in H'; congruence.
      - destruct (nth_error (st_servers st) s); simpl in H'; congruence.
      - destruct (nth_error (st_servers st) s) as [sv|]; [destruct (sv_queue sv)|]; simpl in H'; congruence.
      - destruct (nth_error (st_servers st) s) as [sv|]; [|congruence].
        destruct (nth_error (sv_busy sv) j) as [m|]; [|congruence].
        destruct (nth_error (st_requests st) (q_req m)) as [y|]; [|simpl in H'; congruence].
        destruct (_ && _); simpl in H'; eauto; congruence.
      - destruct (nth_error (st_requests st) k) as [y|]; [|congruence].
        destruct (_ && _); [|congruence]. destruct (rq_events y) as [|[s i] rest]; simpl in H'; eauto; congruence.
      - destruct (nth_error (st_requests st) k) as [y|]; [|congruence]. destruct (_ && _); simpl in H'; eauto; congruence.
      - destruct (nth_error (st_requests st) k) as [y|]; [|congruence]. destruct (_ && _); simpl in H'; eauto; congruence.
      - destruct (nth_error (st_requests st) k) as [y|]; [|congruence]. destruct (rq_phase y); simpl in H'; eauto; congruence. }
    destruct (step_requests st e r q H) as (q1 & H1 & (O1 & O2 & _ & O4 & O5 & O6)). rewrite H' in H1. injection H1 as <-.
    assert (KEEP : rq_phase q = Gone b -> (exists q, Some q = Some q /\ rq_phase q = Gone b /\ rq_obj q' = rq_obj q /\ rq_shards q' = rq_shards q) -> True) by auto.
    destruct (rq_phase q) as [|b0|b0] eqn:P.
    3: { left. exists q. specialize (O5 b0 eq_refl). rewrite P' in O5. injection O5 as ->. repeat split; auto. }
    all: right; clear KEEP.
    all: assert (D : nth_error (st_requests st) r = Some q' -> False) by congruence;
      assert (U : forall k0 x y, nth_error (st_requests st) k0 = Some y -> nth_error (update (st_requests st) k0 x) r = Some q' ->
        (k0 = r -> rq_phase x <> Gone b) -> False)
        by (intros k0 x y Hk0 Hu Hx; destruct (Nat.eq_dec r k0) as [->|N0];
            [rewrite (nth_update_eq _ _ _ _ Hk0) in Hu; injection Hu as <-; exact (Hx eq_refl P')
            |rewrite nth_update_ne in Hu by exact N0; exact (D Hu)]).
    all: assert (SF : forall x, rq_phase x = Open -> rq_phase (settle x) <> Gone b)
      by (intros x Px; destruct (settle_phase x Px) as [[E _]|[E _]]; rewrite E; discriminate).
    all: destruct e as [obj n|k b1|s|s|s|s j b1|k|k|k|k b1]; cbn [step] in H' |- *; try (exfalso; exact (D H')).
    all: try (exfalso; cbn [st_requests] in H'; rewrite nth_error_app1 in H' by (apply nth_error_Some; congruence); exact (D H')).
    all: try (exfalso; destruct (nth_error (st_servers st) s) as [sv|]; [try destruct (sv_queue sv)|]; exact (D H')).
    all: try (exfalso; destruct (nth_error (st_servers st) s) as [sv|]; [|exact (D H')];
      destruct (nth_error (sv_busy sv) j) as [m|]; [|exact (D H')];
      destruct (nth_error (st_requests st) (q_req m)) as [y|] eqn:Hy; [|exact (D H')];
      destruct (_ && _); [|exact (D H')]; apply (U _ _ _ Hy H'); intros E; rewrite E, H in Hy; injection Hy as <-;
      unfold arrive; rewrite P; simpl; congruence).
    all: destruct (nth_error (st_requests st) k) as [y|] eqn:Hy; [|exfalso; exact (D H')].
    all: try (exfalso; destruct (is_open y && (rq_asked y <? rq_shards y)); [destruct b1|]; try exact (D H');
      apply (U _ _ _ Hy H'); intros _; apply SF; reflexivity).
    all: try (exfalso; destruct (is_open y && (rq_asked y =? rq_shards y)); [|exact (D H')];
      destruct (rq_events y) as [|[s i] rest]; [exact (D H')|]; apply (U _ _ _ Hy H'); intros _; apply SF; reflexivity).
    all: try (exfalso; destruct (is_open y && (rq_asked y =? rq_shards y)); [|exact (D H')];
      apply (U _ _ _ Hy H'); intros _; simpl; discriminate).
    all: destruct (Nat.eq_dec k r) as [->|N0].
    all: try (exfalso; destruct (rq_phase y); [exact (D H')| |exact (D H')]; apply (U _ _ _ Hy H'); congruence).
    all: rewrite H in Hy; injection Hy as <-; rewrite P; try (exfalso; rewrite P in H'; exact (D H')).
    exists b1. split; [reflexivity|]. intros ->. cbn [st_keys]. intros Hin. apply filter_In in Hin.
    destruct Hin as [_ Hin]. rewrite Nat.eqb_refl in Hin. discriminate.
  Qed.

  Lemma clean r es q : ~ In (Delete r false) es -> let st := run (start holds) es in
    nth_error (st_requests st) r = Some q -> rq_phase q = Gone true -> apart holds (rq_obj q) (rq_shards q) ->
    ~ In r (st_keys st).
  Proof.
    revert q. induction es as [|e es IH] using rev_ind; intros q' Nd.
    - intros st H. destruct r; discriminate H.
    - cbv zeta. rewrite run_snoc. set (st := run (start holds) es) in *. intros H' P' Ap.
      assert (Nd' : ~ In (Delete r false) es) by (intros Hin; apply Nd, in_or_app; left; exact Hin).
      destruct (gone_new st e r q' true H' P') as [(q & H & P & O1 & O2)|(ok0 & -> & Hk)].
      + rewrite O1, O2 in Ap. apply (step_keys st e r q); auto; [apply ok_run, start_ok|]. exact (IH q Nd' H P Ap).
      + destruct ok0; [exact (Hk eq_refl)|]. exfalso. apply Nd, in_or_app. right. left. reflexivity.
  Qed.
End Seek.

Lemma left_step st e r : deleted st r -> In r (st_keys st) -> deleted (step st e) r /\ In r (st_keys (step st e)).
Proof.
  intros (q & b & Hq & Ph) Hin. split.
  { destruct (step_requests st e r q Hq) as (q' & Hq' & (_ & _ & _ & _ & O & _)). exists q', b. split; [exact Hq'|exact (O b Ph)]. }
  destruct e as [obj n|k c|s|s|s|s j c|k|k|k|k c]; cbn [step]; try exact Hin.
  - destruct (nth_error (st_requests st) k) as [y|]; [|exact Hin]. destruct (_ && _); [destruct c|]; exact Hin.
  - destruct (nth_error (st_servers st) s); exact Hin.
  - destruct (nth_error (st_servers st) s); exact Hin.
  - destruct (nth_error (st_servers st) s) as [sv|]; [destruct (sv_queue sv)|]; exact Hin.
  - destruct (nth_error (st_servers st) s) as [sv|]; [|exact Hin].
    destruct (nth_error (sv_busy sv) j) as [m|]; [|exact Hin].
    destruct (nth_error (st_requests st) (q_req m)) as [y|]; [|exact Hin].
    destruct (_ && _); [right|]; exact Hin.
  - destruct (nth_error (st_requests st) k) as [y|]; [|exact Hin].
    destruct (_ && _); [|exact Hin]. destruct (rq_events y) as [|[s i] rest]; exact Hin.
  - destruct (nth_error (st_requests st) k) as [y|]; [|exact Hin]. destruct (_ && _); exact Hin.
  - destruct (nth_error (st_requests st) k) as [y|]; [|exact Hin]. destruct (_ && _); exact Hin.
  - destruct (nth_error (st_requests st) k) as [y|] eqn:Hy; [|exact Hin]. destruct (rq_phase y) eqn:P; try exact Hin.
    cbn [st_keys]. destruct c; [|exact Hin]. apply filter_In. split; [exact Hin|].
    destruct (Nat.eqb_spec r k) as [->|]; [congruence|reflexivity].
Qed.

Lemma left_run es : forall st r, deleted st r -> In r (st_keys st) -> In r (st_keys (run st es)).
Proof.
  induction es as [|e es IH]; intros st r D H; [exact H|]. destruct (left_step st e r D H) as [D' H']. exact (IH _ _ D' H').
Qed.
