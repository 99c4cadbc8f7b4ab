(** Proofs about who sent the content that is stored. *)
From Verif Require Import Str_Model Meta_Model Meta_Spec Api_Model Client_Model Client_Spec Possess_Spec.
From stdpp Require Import gmap.
Local Open Scope list_scope.
Local Notation length := List.length.
Local Arguments accepted : simpl never.
Local Arguments u_hash : simpl never.
Local Arguments temp_digest : simpl never.
Local Arguments make_version : simpl never.
Local Arguments big_layout : simpl never.
Local Arguments save_meta : simpl never.
Local Arguments save_version : simpl never.
Local Opaque save_meta save_version.

Section Possess.
  Variable sha : str -> str.
  Variable cf : config.

  Definition small_ok (u : upload) : Prop :=
    cf_checksum cf = true -> (u_size u < cf_distinct cf)%nat -> accepted sha cf u = true.

  Definition thread_ok (t : thread) : Prop :=
    bound (t_upload t) = true /\
    match t with
    | PMeta u _ | PVersion u _ | PDone u _ (Some _) => small_ok u
    | BFinish u _ false | BMeta u _ false | BVersion u _ false | BCommit u _ _ => length (u_sent u) = u_size u
    | _ => True
    end.

  Definition data_ok (ts : list thread) (m : gmap str stored) : Prop :=
    forall h s, m !! h = Some s -> exists t l, t ∈ ts /\ t_layout t = Some l /\
      h = u_hash sha (t_upload t) l /\ s_content s = received (t_upload t) /\ sent_all (t_upload t) /\
      (cf_checksum cf = true -> t_resumable t = false -> told_truth sha (t_upload t)).

  Lemma accepted_sent u : bound u = true -> accepted sha cf u = true ->
    sent_all u /\ (cf_checksum cf = true -> told_truth sha u).
  Proof.
    unfold accepted, bound, sent_all, told_truth, cut_short, received. intros Hb.
    rewrite !andb_true_iff in Hb. destruct Hb as [[_ Hd] _]. apply bool_decide_eq_true_1 in Hd.
    destruct (cf_checksum cf).
    - intros H. apply bool_decide_eq_true_1 in H. destruct (Nat.ltb_spec (length (u_sent u)) (u_size u)).
      + congruence.
      + split; [assumption|]. intros _. symmetry. exact H.
    - intros H. apply negb_true_iff, Nat.ltb_ge in H. split; [exact H|discriminate].
  Qed.

  Lemma step_ok d m t ch d' m' t' : thread_ok t -> advance sha cf d m t ch = (d', m', t') ->
    thread_ok t' /\ t_upload t' = t_upload t /\ t_resumable t' = t_resumable t /\
    (forall l, t_layout t = Some l -> t_layout t' = Some l).
  Proof.
    intros [Hb Ht] E. unfold thread_ok.
    destruct t as [u|u l|u l|u l|u l r|u|u l|u l loc|u l loc|u l loc|u l n|u l r]; simpl in *.
    - destruct (d_bkt d !! u_bucket u) as [b|]; [|injection E as <- <- <-; repeat split; auto; discriminate].
      destruct (b_readonly b); [injection E as <- <- <-; repeat split; auto; discriminate|].
      destruct (_ && _) eqn:C; injection E as <- <- <-; repeat split; auto; try discriminate.
      simpl. intros _ Hs. apply andb_true_iff in C. destruct C as [C _]. apply Nat.leb_le in C. lia.
    - destruct (accepted sha cf u) eqn:A; [|injection E as <- <- <-; repeat split; auto].
      injection E as <- <- <-. destruct (ch_a ch); repeat split; auto. intros _ _. exact A.
    - destruct (ch_a ch); [|injection E as <- <- <-; repeat split; auto].
      destruct (save_meta u d) as [d0 ok]. injection E as <- <- <-. destruct ok; repeat split; auto.
    - destruct (save_version _ _ d) as [d0 r]. injection E as <- <- <-. destruct r; repeat split; auto.
    - injection E as <- <- <-. repeat split; auto.
    - destruct (d_bkt d !! u_bucket u) as [b|]; [|injection E as <- <- <-; repeat split; auto; discriminate].
      destruct (b_readonly b); [injection E as <- <- <-; repeat split; auto; discriminate|].
      destruct (_ && _) eqn:C; injection E as <- <- <-; repeat split; auto; discriminate.
    - destruct (Nat.eqb_spec (length (u_sent u)) (u_size u)); injection E as <- <- <-; repeat split; auto.
    - destruct (cf_checksum cf); [destruct (bool_decide _)|]; injection E as <- <- <-; repeat split; auto.
    - destruct (ch_a ch); [|injection E as <- <- <-; repeat split; auto].
      destruct (save_meta u d) as [d0 ok]. injection E as <- <- <-. destruct ok; repeat split; auto.
    - destruct (save_version _ _ d) as [d0 r]. injection E as <- <- <-.
      destruct r; [destruct loc|]; repeat split; auto.
    - injection E as <- <- <-. repeat split; auto.
    - injection E as <- <- <-. repeat split; auto.
  Qed.

  (** What a step adds to the data comes from the request that makes it. *)
  Lemma step_data d m t ch d' m' t' h s : thread_ok t -> advance sha cf d m t ch = (d', m', t') ->
    m' !! h = Some s -> m !! h = Some s \/
    exists l, t_layout t = Some l /\ h = u_hash sha (t_upload t) l /\ s_content s = received (t_upload t) /\
      sent_all (t_upload t) /\ (cf_checksum cf = true -> t_resumable t = false -> told_truth sha (t_upload t)).
  Proof.
    intros [Hb Ht] E Hm.
    destruct t as [u|u l|u l|u l|u l r|u|u l|u l loc|u l loc|u l loc|u l n|u l r]; simpl in *;
      try (left; injection E as _ <- _; exact Hm);
      try (left; repeat match type of E with
        | (match d_bkt d !! ?x with _ => _ end) = _ => destruct (d_bkt d !! x)
        | (if ?c then _ else _) = _ => destruct c
        | (let (_, _) := ?x in _) = _ => destruct x
        end; injection E as _ <- _; exact Hm).
    - destruct (accepted sha cf u) eqn:A; [|left; injection E as _ <- _; exact Hm].
      injection E as _ <- _. unfold put_data in Hm. destruct (ch_a ch || ch_b ch); [|left; exact Hm].
      rewrite lookup_insert_Some in Hm. destruct Hm as [[<- <-]|[_ Hm]]; [|left; exact Hm].
      right. exists l. destruct (accepted_sent u Hb A) as [A1 A2]. repeat split; auto.
    - injection E as _ <- _. unfold put_data in Hm. destruct (ch_a ch || ch_b ch); [|left; exact Hm].
      rewrite lookup_insert_Some in Hm. destruct Hm as [[<- <-]|[_ Hm]]; [|left; exact Hm].
      right. exists l. simpl. unfold received, sent_all. rewrite <- Ht, firstn_all. repeat split; auto. discriminate.
  Qed.

  Definition world_ok (w : world) : Prop :=
    Forall thread_ok (w_threads w) /\ data_ok (w_threads w) (w_data w).

  Lemma start_data ts t m : data_ok ts m -> data_ok (ts ++ [t]) m.
  Proof.
    intros H h s Hm. destruct (H h s Hm) as (t0 & l & A & B). exists t0, l. split; [|exact B].
    apply elem_of_app. left. exact A.
  Qed.

  Lemma cstep_ok w a : world_ok w -> world_ok (cstep sha cf w a).
  Proof.
    intros [Hw Hd]. destruct a as [u|u|k ch|c]; simpl.
    - destruct (bound u) eqn:B; [|split; assumption]. split; [|apply start_data; exact Hd].
      apply Forall_app. split; [exact Hw|]. constructor; [|constructor]. split; [exact B|exact I].
    - destruct (bound u) eqn:B; [|split; assumption]. split; [|apply start_data; exact Hd].
      apply Forall_app. split; [exact Hw|]. constructor; [|constructor]. split; [exact B|exact I].
    - destruct (w_threads w !! k) as [t|] eqn:Hk; [|split; assumption].
      pose proof (Forall_lookup_1 _ _ _ _ Hw Hk) as Ht.
      destruct (advance sha cf (w_db w) (w_data w) t ch) as [[d' m'] t'] eqn:E. simpl.
      destruct (step_ok _ _ _ _ _ _ _ Ht E) as (T1 & T2 & T3 & T4).
      assert (HL : (k < length (w_threads w))%nat) by (apply lookup_lt_Some in Hk; exact Hk).
      split; [apply Forall_insert; assumption|].
      assert (HT : t' ∈ <[k:=t']> (w_threads w)).
      { apply (elem_of_list_lookup_2 (<[k:=t']> (w_threads w)) k). apply list_lookup_insert. exact HL. }
      intros h s Hm. destruct (step_data _ _ _ _ _ _ _ _ _ Ht E Hm) as [Hm0|(l & A & B)].
      + destruct (Hd h s Hm0) as (t0 & l & A & B & C). apply elem_of_list_lookup in A. destruct A as [j Hj].
        destruct (decide (k = j)) as [<-|N0].
        * rewrite Hk in Hj. injection Hj as <-. exists t', l. split; [exact HT|]. rewrite T2, T3. split; [exact (T4 _ B)|exact C].
        * exists t0, l. split; [|split; assumption]. apply (elem_of_list_lookup_2 (<[k:=t']> (w_threads w)) j).
          rewrite list_lookup_insert_ne by exact N0. exact Hj.
      + exists t', l. split; [exact HT|]. rewrite T2, T3. split; [exact (T4 _ A)|exact B].
    - split; assumption.
  Qed.

  Lemma crun_ok acts : forall w, world_ok w -> world_ok (crun sha cf w acts).
  Proof. induction acts as [|a acts IH]; intros w H; [exact H|]. apply IH, cstep_ok, H. Qed.

  Lemma run_ok acts : world_ok (crun sha cf world_start acts).
  Proof. apply crun_ok. split; [constructor|]. intros h s H. simpl in H. rewrite lookup_empty in H. discriminate H. Qed.
End Possess.
