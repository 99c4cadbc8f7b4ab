(** Proofs about the record cache. *)
From Verif Require Import Str_Model Str_Proofs Meta_Model Meta_Spec Meta_Proofs Meta_History Meta_Ids Meta_List
  Cache_Model Cache_Spec.
From stdpp Require Import gmap sorting.
Local Arguments N.pow : simpl never.
Local Arguments N.add : simpl never.

Global Instance metadata_eq : EqDecision metadata.
Proof. solve_decision. Defined.
Global Instance version_eq : EqDecision version.
Proof. solve_decision. Defined.
Global Instance bucket_eq : EqDecision bucket.
Proof. solve_decision. Defined.
Global Instance crec_eq : EqDecision crec.
Proof. solve_decision. Defined.
Global Instance ckey_eq : EqDecision ckey.
Proof. solve_decision. Defined.

(** ** Texts *)

Lemma meta_key_inj : forall a b, meta_key a = meta_key b -> a = b.
Proof. intros a b H. unfold meta_key in H. by apply app_inv_head in H. Qed.

Lemma ver_key_meta : forall id n, ver_key id n = meta_key (vkey id n).
Proof. done. Qed.

Lemma text_inj : forall P k k', separate P -> in_use P k -> in_use P k' -> text k = text k' -> k = k'.
Proof.
  intros P k k' S U U' H.
  destruct k as [id|id n|name], k' as [id'|id' n'|name']; cbn [text in_use] in *;
    rewrite ?ver_key_meta in H; try (by (unfold meta_key, bkt_key in H; cbn in H; discriminate)).
  - by apply meta_key_inj in H as ->.
  - apply meta_key_inj in H. by apply S in H.
  - apply meta_key_inj in H. symmetry in H. by apply S in H.
  - apply meta_key_inj, vkey_inj2 in H as [-> ->]. done.
  - unfold bkt_key in H. by apply app_inv_head in H as ->.
Qed.

(** ** Names *)

Lemma named_empty : named db_empty.
Proof. split; done. Qed.

Lemma named_upd : forall d id n v d', named d -> effect d (UpdateVersion id n v) d' -> named d'.
Proof.
  intros d id n v d' [V B] H. inversion H as [c0 E1 E2| | | | | | |? ? ? b o Hb Ho|  | ? ? [(? & [X|X])|(? & X)]]; subst; try done.
  split; [|done]. intros id' n' v' G. unfold with_vers in G. rewrite gv_put in G by done.
  destruct (decide _) as [[-> ->]|]; [|by eapply V]. injection G as <-. cbn. apply (V id).
  unfold get_ver. by rewrite Hb.
Qed.

Lemma bkts_call : forall batch c d, (forall name b, d_bkt d !! name = Some b -> b_name b = name) ->
  forall name b, d_bkt (fst (dispatch (command batch c) d)) !! name = Some b -> b_name b = name.
Proof.
  intros batch c d B name b G.
  destruct (call_id c) eqn:Ec.
  - destruct (dispatch_effect batch c d); try (by eapply B).
    destruct H as [(? & [->| ->])|(? & ->)]; done.
  - destruct c as [| | | | | | | |b0|nm|b0]; try done; cbn [command dispatch rd_dest apply_bucket rd_type rd_bkt rd_name] in G.
    + unfold bkt_create in G. destruct (b_name b0) eqn:Eb; cbn in G; [by eapply B|].
      rewrite <-Eb in G. destruct (d_bkt d !! b_name b0) eqn:E; cbn in G; [by eapply B|].
      apply lookup_insert_Some in G as [[<- <-]|[_ G]]; [done|by eapply B].
    + cbn in G. apply lookup_delete_Some in G as [_ G]. by eapply B.
    + unfold bkt_update in G. destruct (b_name b0) eqn:Eb; cbn in G; [by eapply B|].
      rewrite <-Eb in G. destruct (d_bkt d !! b_name b0) eqn:E; cbn in G; [|by eapply B].
      destruct (_ <=? _)%Z; cbn in G; [by eapply B|].
      apply lookup_insert_Some in G as [[<- <-]|[_ G]]; [by cbn|by eapply B].
Qed.

Lemma named_call : forall batch c d, named d -> named (fst (dispatch (command batch c) d)).
Proof.
  intros batch c d [V B]. split; [|by apply bkts_call].
  destruct (dispatch_effect batch c d); unfold with_vers, with_meta, with_hash, with_uid, with_bkt; cbn [d_vers d_meta d_hash d_uid d_bkt]; try done;
    intros id' n' v' G.
  - assert (get_ver id' n' d = Some v') as G' by (unfold get_ver in *; cbn in *;
      destruct (decide (id = id')) as [<-|]; [rewrite lookup_insert in G; cbn in G; by rewrite lookup_empty in G
        |by rewrite lookup_insert_ne in G by done]). by eapply V.
  - rewrite gv_drop in G. destruct (decide _); [done|]. by eapply V.
  - rewrite gv_put in G by done. destruct (decide _) as [[-> ->]|]; [|by eapply V]. by injection G as <-.
  - rewrite gv_put in G by done. destruct (decide _) as [[-> ->]|]; [|by eapply V]. by injection G as <-.
  - rewrite gv_del in G by done. destruct (decide _) as [|]; [done|]. by eapply V.
  - rewrite gv_put in G by done. destruct (decide _) as [[-> ->]|]; [|by eapply V]. injection G as <-. cbn.
    apply (V id). unfold get_ver. by rewrite H.
  - rewrite gv_clear in G. destruct (decide _); [done|]. by eapply V.
Qed.

(** ** What a write tells the cache *)

Lemma repo_call_dispatch : forall c d, fst (repo_call c d) = fst (dispatch (command false c) d).
Proof. intros [] d; done. Qed.

Lemma commit_failed : forall d r d' e, commit d r = (d', Some e) -> d' = d.
Proof. intros d [d1|e1] d' e H; cbn in H; congruence. Qed.

Lemma commit_done : forall d r d', commit d r = (d', None) -> r = inl d'.
Proof. intros d [d1|e1] d' H; cbn in H; congruence. Qed.

Lemma repo_call_failed : forall c d d' e, repo_call c d = (d', Some e) -> d' = d.
Proof.
  intros [] d d' e H; cbn [repo_call] in H; try (by eapply commit_failed);
    unfold repo_add_version, repo_add_version_raft in H; destruct (_ && _); try (by eapply commit_failed); congruence.
Qed.

Lemma numbers_in : forall a b n, n ∈ numbers a b <-> (a <= n <= b)%N.
Proof.
  intros a b n. unfold numbers. rewrite elem_of_list_fmap. split.
  - intros (i & -> & H). apply elem_of_seq in H. lia.
  - intros H. exists (N.to_nat (n - a)). split; [lia|]. apply elem_of_seq. lia.
Qed.

Definition told (P : str -> Prop) (c : call) (d d' : db) : Prop :=
  (forall t r, CSet t r ∈ announce c d -> exists k, in_use P k /\ text k = t /\ stored d' k = Some r) /\
  (forall k, stored d' k <> stored d k ->
     untold (mk_cst d ∅ []) (ODirect c) k \/ exists a, a ∈ announce c d /\ act_key a = text k).

Lemma told_set : forall P c k0 r d d', announce c d = [CSet (text k0) r] -> in_use P k0 -> stored d' k0 = Some r ->
  (forall k, k <> k0 -> stored d' k = stored d k) -> told P c d d'.
Proof.
  intros P c k0 r d d' A U E O. split; rewrite A.
  - intros t r' H. apply elem_of_list_singleton in H. injection H as -> ->. by exists k0.
  - intros k H. right. destruct (decide (k = k0)) as [->|N]; [|by apply O in N].
    exists (CSet (text k0) r). split; [by constructor|done].
Qed.

Lemma told_same : forall P c d, (forall t r, CSet t r ∉ announce c d) -> told P c d d.
Proof. intros P c d H. split; [|done]. intros t r X. by apply H in X. Qed.

Lemma told_del : forall P c k0 d d', announce c d = [CDel (text k0)] ->
  (forall k, k <> k0 -> stored d' k = stored d k) -> told P c d d'.
Proof.
  intros P c k0 d d' A O. split; rewrite A.
  - intros t r' H. apply elem_of_list_singleton in H. done.
  - intros k H. right. destruct (decide (k = k0)) as [->|N]; [|by apply O in N].
    exists (CDel (text k0)). split; [by constructor|done].
Qed.

Lemma no_set_numbers : forall t r id a b, CSet t r ∉ map (fun i => CDel (ver_key id i)) (numbers a b).
Proof. intros t r id a b H. apply elem_of_list_fmap in H as (? & ? & _). done. Qed.

Lemma told_call : forall (P : str -> Prop) c d d', named d -> (forall id, call_id c = Some id -> P id) ->
  repo_call c d = (d', None) -> told P c d d'.
Proof.
  intros P c d d' [NV NB] U H.
  destruct c as [id m|id|id m|id v|id v|id n|id n v|id|b|name|b]; cbn [repo_call] in H.
  - apply commit_done in H. unfold add_meta in H. destruct (d_meta d !! id) eqn:E; [done|].
    rewrite create_version_bucket_eq in H. destruct (decide (id = [])); [done|].
    destruct (d_vers d !! id) eqn:E2; [done|]. injection H as <-.
    apply (told_set P _ (KMeta id) (CMeta m)); [done|by apply U|cbn; by rewrite lookup_insert|].
    intros [id'|id' n'|name'] N; cbn; [rewrite lookup_insert_ne by congruence; done| |done].
    unfold get_ver. cbn. destruct (decide (id = id')) as [<-|]; [|by rewrite lookup_insert_ne].
    rewrite lookup_insert, E2. cbn. by rewrite lookup_empty.
  - apply commit_done in H. unfold remove_meta in H. destruct (d_meta d !! id) eqn:E.
    + assert (d' = with_vers (delete id (d_vers d)) (with_meta (delete id (d_meta d)) d)) as ->.
      { unfold remove_version_bucket in H. cbn in H. destruct (d_vers d !! id) eqn:E2; [by injection H as <-|].
        injection H as <-. by rewrite with_vers_del_absent. }
      split; cbn [announce].
      * intros t r X. apply elem_of_cons in X as [X|X]; [done|]. by apply no_set_numbers in X.
      * intros [id'|id' n'|name'] N.
        -- destruct (decide (id' = id)) as [->|Ne]; [|exfalso; apply N; cbn; by rewrite lookup_delete_ne].
           right. exists (CDel (meta_key id)). split; [by constructor|done].
        -- destruct (decide (id' = id)) as [->|Ne]; [|exfalso; apply N; cbn; unfold with_vers, with_meta; cbn; rewrite gv_drop, decide_False by done; done].
           cbn [untold]. cbn [cs_db].
           destruct (decide (1 <= n' <= last_version_number id d)%N) as [L|L].
           ++ right. exists (CDel (ver_key id n')). split; [|done]. apply elem_of_cons. right.
              apply elem_of_list_fmap. exists n'. split; [done|]. by apply numbers_in.
           ++ left. lia.
        -- done.
    + injection H as <-. apply told_same. cbn [announce].
      intros t r X. apply elem_of_cons in X as [X|X]; [done|]. by apply no_set_numbers in X.
  - apply commit_done in H. unfold update_meta in H. destruct (d_meta d !! id) eqn:E; [|done].
    destruct (_ <=? _)%Z; [done|]. injection H as <-.
    apply (told_set P _ (KMeta id) (CMeta (keep_meta m0 m))).
    + cbn [announce]. by rewrite E.
    + by apply U.
    + cbn. by rewrite lookup_insert.
    + intros [id'|id' n'|name'] N; cbn; [rewrite lookup_insert_ne by congruence; done|done|done].
  - unfold repo_add_version in H. destruct (_ && _); [done|]. apply commit_done in H. unfold add_ver in H.
    destruct (d_vers d !! id) eqn:E; [|done]. destruct (uid_exists d (v_uid v)) eqn:Q; [done|].
    destruct (vb_map v0 !! _) eqn:K; [done|]. destruct (idx_add (v_hash v) _ _); [|done].
    destruct (idx_add (v_uid v) _ _); [|done]. injection H as <-.
    apply (told_set P _ (KVer id (next_seq v0)) (CVer (with_seq (next_seq v0) v))).
    + cbn [announce]. unfold add_ver_seq. by rewrite E, Q.
    + by apply U.
    + cbn. unfold with_uid, with_hash, with_vers; cbn. by rewrite gv_put, decide_True.
    + intros [id'|id' n'|name'] N; cbn; [done| |done].
      unfold with_uid, with_hash, with_vers; cbn. rewrite gv_put, decide_False by naive_solver. done.
  - unfold repo_add_version_raft in H. destruct (_ && _); [done|]. apply commit_done in H.
    unfold add_ver_with_sequence in H.
    destruct (d_vers d !! id) eqn:E; [|done]. destruct (uid_exists d (v_uid v)) eqn:Q; [done|].
    destruct (vb_map v0 !! _) eqn:K; [done|]. destruct (idx_add (v_hash v) _ (d_uid d)); [|done].
    destruct (idx_add (v_hash v) _ (d_hash d)); [|done]. injection H as <-.
    apply (told_set P _ (KVer id (v_seq v)) (CVer v)).
    + done.
    + by apply U.
    + cbn. unfold with_uid, with_hash, with_vers; cbn. by rewrite gv_put, decide_True.
    + intros [id'|id' n'|name'] N; cbn; [done| |done].
      unfold with_uid, with_hash, with_vers; cbn. rewrite gv_put, decide_False by naive_solver. done.
  - apply commit_done in H. unfold remove_ver in H. destruct (d_vers d !! id) eqn:E.
    + destruct (vb_map v !! _) eqn:K; [|done]. injection H as <-.
      apply (told_del P _ (KVer id n)); [done|].
      intros [id'|id' n'|name'] N; cbn; [done| |done].
      unfold with_uid, with_hash, with_vers; cbn. rewrite gv_del, decide_False by naive_solver. done.
    + injection H as <-. apply told_same. cbn. intros t r X. by apply elem_of_list_singleton in X.
  - apply commit_done in H. unfold update_ver in H. destruct (d_vers d !! id) eqn:E; [|done].
    cbn [v_seq with_seq] in H. destruct (vb_map v0 !! _) eqn:K; [|done].
    destruct (_ <=? _)%Z; [done|]. injection H as <-. rewrite keep_identity_seq.
    assert (get_ver id n d = Some v1) as G by (unfold get_ver; by rewrite E).
    apply (told_set P _ (KVer id n) (CVer (keep_identity v1 v))).
    + cbn [announce]. rewrite G. cbn. by rewrite (NV _ _ _ G).
    + by apply U.
    + cbn. unfold with_vers; cbn. by rewrite gv_put, decide_True.
    + intros [id'|id' n'|name'] N; cbn; [done| |done].
      unfold with_vers; cbn. rewrite gv_put, decide_False by naive_solver. done.
  - apply commit_done in H. unfold remove_all_ver, remove_version_bucket in H.
    destruct (d_vers d !! id) eqn:E; [|done]. rewrite create_version_bucket_eq in H. cbn in H.
    destruct (decide (id = [])); [done|]. rewrite lookup_delete in H. injection H as <-.
    unfold with_vers; cbn. rewrite insert_delete_insert. split; cbn [announce].
    + intros t r X. by apply no_set_numbers in X.
    + intros [id'|id' n'|name'] N; [done| |done].
      cbn in N. rewrite gv_clear in N. destruct (decide (id' = id)) as [->|]; [|done].
      cbn [untold cs_db]. destruct (decide (n' <= last_version_number id d)%N) as [L|L].
      * right. exists (CDel (ver_key id n')). split; [|done].
        apply elem_of_list_fmap. exists n'. split; [done|]. apply numbers_in. lia.
      * left. lia.
  - apply commit_done in H. unfold bkt_create in H.
    destruct (d_bkt d !! b_name b) eqn:E.
    { destruct (b_name b); done. }
    assert (d' = with_bkt (<[b_name b := b]> (d_bkt d)) d) as -> by (destruct (b_name b); [done|by injection H as <-]).
    apply (told_set P _ (KBkt (b_name b)) (CBkt b)); [done|done|cbn; by rewrite lookup_insert|].
    intros [id'|id' n'|name'] N; cbn; [done|done|]. by rewrite lookup_insert_ne by congruence.
  - injection H as <-. apply (told_del P _ (KBkt name)); [done|].
    intros [id'|id' n'|name'] N; cbn; [done|done|]. by rewrite lookup_delete_ne by congruence.
  - apply commit_done in H. unfold bkt_update in H.
    destruct (d_bkt d !! b_name b) eqn:E.
    2:{ destruct (b_name b); done. }
    assert (d' = with_bkt (<[b_name b := keep_ctime b0 b]> (d_bkt d)) d) as ->.
    { destruct (b_name b); [done|]. destruct (_ <=? _)%Z; [done|by injection H as <-]. }
    apply (told_set P _ (KBkt (b_name b)) (CBkt (keep_ctime b0 b))); [|done|cbn; by rewrite lookup_insert|].
    { cbn [announce]. by rewrite E. }
    intros [id'|id' n'|name'] N; cbn; [done|done|]. by rewrite lookup_insert_ne by congruence.
Qed.

(** ** The invariant *)

Definition busy (s : cst) (k : ckey) : Prop := exists g a, g ∈ cs_pend s /\ a ∈ g /\ act_key a = text k.

Record good (P : str -> Prop) (s : cst) : Prop := {
  g_named : named (cs_db s);
  g_right : forall g t r, g ∈ cs_pend s -> CSet t r ∈ g ->
    exists k, in_use P k /\ text k = t /\ stored (cs_db s) k = Some r;
  g_cache : forall k r, in_use P k -> cs_cache s !! text k = Some r ->
    stored (cs_db s) k = Some r \/ busy s k }.

Lemma good_start : forall P d, named d -> good P (cstart d).
Proof.
  intros P d N. split; cbn; [done| |].
  - intros g t r H. by apply elem_of_nil in H.
  - intros k r _ H. by rewrite lookup_empty in H.
Qed.

Lemma quiet_busy : forall s k, quiet s k -> busy s k -> False.
Proof. intros s k Q (g & a & Hg & Ha & E). by eapply Q. Qed.

Lemma good_change : forall P s d' gs, good P s -> named d' ->
  (forall g t r, g ∈ gs -> CSet t r ∈ g -> exists k, in_use P k /\ text k = t /\ stored d' k = Some r) ->
  (forall k, in_use P k -> stored d' k <> stored (cs_db s) k ->
     quiet s k /\ (cs_cache s !! text k = None \/ exists g a, g ∈ gs /\ a ∈ g /\ act_key a = text k)) ->
  good P (mk_cst d' (cs_cache s) (cs_pend s ++ gs)).
Proof.
  intros P s d' gs G N R C. split; cbn [cs_db cs_cache cs_pend]; [done| |].
  - intros g t r Hg Hr. apply elem_of_app in Hg as [Hg|Hg]; [|by eapply R].
    destruct (g_right _ _ G _ _ _ Hg Hr) as (k & U & T & E). exists k. split_and!; [done|done|].
    destruct (decide (stored d' k = stored (cs_db s) k)) as [->|X]; [done|].
    destruct (C k U X) as [Q _]. exfalso. eapply Q; [exact Hg|exact Hr|]. done.
  - intros k r U E. destruct (decide (stored d' k = stored (cs_db s) k)) as [->|X].
    + destruct (g_cache _ _ G k r U E) as [?|(g & a & Hg & Ha & T)]; [by left|right].
      exists g, a. split_and!; [|done|done]. cbn. apply elem_of_app. by left.
    + destruct (C k U X) as [_ [?|(g & a & Hg & Ha & T)]]; [congruence|right].
      exists g, a. split_and!; [|done|done]. cbn. apply elem_of_app. by right.
Qed.

Lemma good_same : forall P s gs, good P s ->
  (forall g t r, g ∈ gs -> CSet t r ∈ g -> exists k, in_use P k /\ text k = t /\ stored (cs_db s) k = Some r) ->
  good P (mk_cst (cs_db s) (cs_cache s) (cs_pend s ++ gs)).
Proof. intros P s gs G R. apply good_change; [done|apply (g_named _ _ G)|done|done]. Qed.

Lemma good_spawn1 : forall P s k r, good P s -> in_use P k -> stored (cs_db s) k = Some r ->
  good P (spawn [CSet (text k) r] s).
Proof.
  intros P s k r G U E. apply good_same; [done|]. intros g t r' Hg Hr.
  apply elem_of_list_singleton in Hg as ->. apply elem_of_list_singleton in Hr. injection Hr as -> ->. by exists k.
Qed.

Lemma good_nospawn : forall P s d', good P s -> named d' ->
  (forall k, in_use P k -> stored d' k <> stored (cs_db s) k -> quiet s k /\ cs_cache s !! text k = None) ->
  good P (mk_cst d' (cs_cache s) (cs_pend s)).
Proof.
  intros P s d' G N C. rewrite <-(app_nil_r (cs_pend s)). apply good_change; [done|done| |].
  - intros g t r H. by apply elem_of_nil in H.
  - intros k U X. destruct (C k U X). by split; [|left].
Qed.

Lemma elem_of_insert_list : forall {A} (l : list A) i x y, y ∈ <[i := x]> l -> y = x \/ y ∈ l.
Proof.
  intros A l i x y H. apply elem_of_list_lookup in H as [j H].
  destruct (decide (i = j)) as [<-|N].
  - destruct (decide (i < length l)%nat).
    + rewrite list_lookup_insert in H by done. left. congruence.
    + rewrite list_insert_ge in H by lia. right. by eapply elem_of_list_lookup_2.
  - rewrite list_lookup_insert_ne in H by done. right. by eapply elem_of_list_lookup_2.
Qed.

Lemma good_run_one : forall P s i, separate P -> good P s -> good P (run_one i s).
Proof.
  intros P s i S G. unfold run_one. destruct (cs_pend s !! i) as [[|a g]|] eqn:E; try done.
  assert ((a :: g) ∈ cs_pend s) as Hin by (by eapply elem_of_list_lookup_2).
  split; cbn [cs_db cs_cache cs_pend].
  - apply (g_named _ _ G).
  - intros g' t r Hg Hr. apply elem_of_insert_list in Hg as [->|Hg].
    + eapply (g_right _ _ G); [exact Hin|by constructor].
    + by eapply (g_right _ _ G).
  - intros k r U C.
    assert (act_key a <> text k -> busy s k -> busy (mk_cst (cs_db s) (cache_act a (cs_cache s)) (<[i:=g]> (cs_pend s))) k) as Hb.
    { intros Na (g' & b & Hg & Hb & T). apply elem_of_list_lookup in Hg as [j Hj].
      destruct (decide (i = j)) as [<-|Nj].
      - rewrite E in Hj. injection Hj as <-. apply elem_of_cons in Hb as [->|Hb]; [done|].
        exists g, b. split_and!; [|done|done]. cbn. eapply elem_of_list_lookup_2.
        apply list_lookup_insert. by eapply lookup_lt_Some.
      - exists g', b. split_and!; [|done|done]. cbn. eapply (elem_of_list_lookup_2 _ j).
        by rewrite list_lookup_insert_ne. }
    destruct a as [t r0|t]; cbn [cache_act act_key] in *.
    + destruct (decide (t = text k)) as [->|N].
      * rewrite lookup_insert in C. injection C as <-. left.
        destruct (g_right _ _ G _ (text k) r0 Hin) as (k' & U' & T & St); [by constructor|].
        assert (k' = k) as <-; [|done]. by eapply text_inj.
      * rewrite lookup_insert_ne in C by done. destruct (g_cache _ _ G _ _ U C); [by left|right; by apply Hb].
    + destruct (decide (t = text k)) as [->|N].
      * by rewrite lookup_delete in C.
      * rewrite lookup_delete_ne in C by done. destruct (g_cache _ _ G _ _ U C); [by left|right; by apply Hb].
Qed.

Lemma named_locate : forall h i l now d, named d -> named (fst (update_locate_by_hash h i l now d)).
Proof. intros. apply (locate_ind named); [|done]. intros. by eapply named_upd. Qed.

Lemma good_step : forall P s o, separate P -> good P s -> step_ok P s o -> good P (fst (cstep s o)).
Proof.
  intros P s o S G [I C].
  destruct o as [c|c|h i l now|d|id|id n|name|p n|i|k].
  - cbn [cstep] in *. destruct (repo_call c (cs_db s)) as [d' [e|]] eqn:R; cbn [fst] in *.
    + pose proof (repo_call_failed _ _ _ _ R) as ->. apply good_nospawn; [done|apply (g_named _ _ G)|done].
    + assert (named d') as Nd.
      { replace d' with (fst (repo_call c (cs_db s))) by (by rewrite R). rewrite repo_call_dispatch.
        apply named_call, (g_named _ _ G). }
      destruct (told_call P c (cs_db s) d' (g_named _ _ G) I R) as [T1 T2].
      unfold spawn; cbn [cs_db cs_cache cs_pend]. apply good_change; [done|done| |].
      * intros g t r Hg Hr. apply elem_of_list_singleton in Hg as ->. by apply T1.
      * intros k U X. destruct (C k U X) as [Q Z]. split; [done|].
        destruct (T2 k X) as [Y|(a & Ha & Ta)].
        -- left. apply Z. destruct c; done.
        -- right. exists (announce c (cs_db s)), a. split_and!; [by constructor|done|done].
  - apply good_nospawn; [done|apply named_call, (g_named _ _ G)|].
    intros k U X. destruct (C k U X) as [Q Z]. split; [done|by apply Z].
  - cbn [cstep] in *. pose proof (named_locate h i l now _ (g_named _ _ G)) as Nd.
    destruct (update_locate_by_hash h i l now (cs_db s)) as [d' e]; cbn [fst] in *.
    apply good_nospawn; [done|done|]. intros k U X. destruct (C k U X) as [Q Z]. split; [done|by apply Z].
  - apply good_nospawn; [done|done|]. intros k U X. destruct (C k U X) as [Q Z]. split; [done|by apply Z].
  - cbn [cstep] in *. destruct (cs_cache s !! meta_key id); [done|].
    destruct (d_meta (cs_db s) !! id) eqn:E; [|done].
    apply (good_spawn1 _ _ (KMeta id)); [done|done|cbn; by rewrite E].
  - cbn [cstep] in *. destruct (cs_cache s !! ver_key id n); [done|].
    destruct (get_ver id n (cs_db s)) eqn:E; [|done].
    destruct (g_named _ _ G) as [NV _]. pose proof (NV _ _ _ E) as Ev. rewrite Ev.
    apply (good_spawn1 _ _ (KVer id n)); [done|done|cbn; by rewrite E].
  - cbn [cstep] in *. destruct (cs_cache s !! bkt_key name); [done|].
    destruct (d_bkt (cs_db s) !! name) eqn:E; [|done].
    destruct (g_named _ _ G) as [_ NB]. pose proof (NB _ _ E) as Ev. rewrite Ev.
    apply (good_spawn1 _ _ (KBkt name)); [done|done|cbn; by rewrite E].
  - cbn [cstep fst]. apply good_same; [done|]. intros g t r Hg Hr.
    apply elem_of_list_singleton in Hg as ->. apply elem_of_list_fmap in Hr as (b & X & Hb).
    injection X as -> ->. unfold list_buckets in Hb. cbn in Hb. apply elem_of_list_omap in Hb as (nm & _ & Hb).
    destruct (g_named _ _ G) as [_ NB]. pose proof (NB _ _ Hb) as <-.
    exists (KBkt (b_name b)). split_and!; [done|done|cbn; by rewrite Hb].
  - by apply good_run_one.
  - cbn [cstep fst]. split; cbn [cs_db cs_cache cs_pend].
    + apply (g_named _ _ G).
    + apply (g_right _ _ G).
    + intros k' r U E. apply lookup_delete_Some in E as [_ E]. apply (g_cache _ _ G _ _ U E).
Qed.

Lemma good_run : forall P ops s, separate P -> good P s -> run_ok P s ops -> good P (crun s ops).
Proof.
  intros P ops. induction ops as [|o ops IH]; intros s S G R; [done|]. destruct R as [R1 R2].
  cbn. apply IH; [done| |done]. by apply good_step.
Qed.

Lemma read_current : forall P s k, good P s -> in_use P k -> quiet s k -> snd (cstep s (read_op k)) = current (cs_db s) k.
Proof.
  intros P s k G U Q.
  assert (forall r, cs_cache s !! text k = Some r -> stored (cs_db s) k = Some r) as H.
  { intros r E. destruct (g_cache _ _ G _ _ U E) as [?|B]; [done|]. by destruct (quiet_busy _ _ Q B). }
  destruct k as [id|id n|name]; cbn [read_op cstep current text stored] in *.
  - destruct (cs_cache s !! meta_key id) as [r|] eqn:E.
    + specialize (H _ eq_refl). destruct (d_meta (cs_db s) !! id); [|done]. by injection H as <-.
    + by destruct (d_meta (cs_db s) !! id).
  - destruct (cs_cache s !! ver_key id n) as [r|] eqn:E.
    + specialize (H _ eq_refl). destruct (get_ver id n (cs_db s)); [|done]. by injection H as <-.
    + by destruct (get_ver id n (cs_db s)).
  - destruct (cs_cache s !! bkt_key name) as [r|] eqn:E.
    + specialize (H _ eq_refl). destruct (d_bkt (cs_db s) !! name); [|done]. by injection H as <-.
    + by destruct (d_bkt (cs_db s) !! name).
Qed.

Lemma reads_current : forall P d ops k, separate P -> named d -> run_ok P (cstart d) ops ->
  in_use P k -> quiet (crun (cstart d) ops) k ->
  snd (cstep (crun (cstart d) ops) (read_op k)) = current (cs_db (crun (cstart d) ops)) k.
Proof.
  intros P d ops k S N R U Q. eapply read_current; [|done|done]. apply good_run; [done|by apply good_start|done].
Qed.

(** ** A page of versions *)

Global Instance klt_antisym : AntiSymm (=) klt.
Proof. intros a b H1 H2. unfold klt in *. pose proof (str_ltb_trans _ _ _ H1 H2) as X. by rewrite str_ltb_irrefl in X. Qed.

Lemma sorted_nodup : forall l, StronglySorted klt l -> NoDup l.
Proof.
  intros l S. induction S as [|x l S IH F]; constructor; [|done]. intros H. rewrite Forall_forall in F.
  apply F in H. unfold klt in H. by rewrite str_ltb_irrefl in H.
Qed.

Lemma sorted_eq : forall l1 l2, StronglySorted klt l1 -> StronglySorted klt l2 -> (forall x, x ∈ l1 <-> x ∈ l2) -> l1 = l2.
Proof.
  intros l1 l2 S1 S2 H. apply (StronglySorted_unique klt); [done|done|].
  apply NoDup_Permutation; [by apply sorted_nodup|by apply sorted_nodup|done].
Qed.

Definition one_length (k : N) (d : db) (id : str) : Prop :=
  forall n, has_version d id n -> (10 ^ k <= n < 10 ^ (k + 1))%N.

Definition from (id : str) (n : N) (b : vbucket) : list str :=
  filter (fun x => str_ltb x (vkey id n) = false) (keys (vb_map b)).

Lemma from_in : forall K d id b k n x, inv K d -> d_vers d !! id = Some b -> one_length k d id ->
  (10 ^ k <= n < 10 ^ (k + 1))%N ->
  x ∈ from id n b <-> exists m v, x = vkey id m /\ vb_map b !! x = Some v /\ (n <= m)%N /\ (10 ^ k <= m < 10 ^ (k + 1))%N.
Proof.
  intros K d id b k n x I Hb O Hn. unfold from. rewrite elem_of_list_filter, keys_in. split.
  - intros [L [v Hv]]. destruct (I _ _ Hb) as [_ I2]. pose proof Hv as Hv'. apply I2 in Hv' as [-> _].
    assert (10 ^ k <= v_seq v < 10 ^ (k + 1))%N as R by (apply O; unfold has_version, get_ver; rewrite Hb; by rewrite Hv).
    exists (v_seq v), v. split_and!; [done|done| |by apply R|by apply R].
    destruct (N.le_gt_cases n (v_seq v)) as [?|G]; [done|]. exfalso.
    apply (print_N_order k) in G; [|done|done]. apply (vkey_lt id) in G. unfold klt in G. congruence.
  - intros (m & v & -> & Hv & L & R). split; [|by eexists].
    destruct (str_ltb _ _) eqn:G; [|done]. exfalso. apply (vkey_lt id) in G. apply (print_N_order k) in G; [lia|done|done].
Qed.

Lemma from_step : forall K d id b k n v, inv K d -> d_vers d !! id = Some b -> one_length k d id ->
  (10 ^ k <= n)%N -> (n + 1 < 10 ^ (k + 1))%N -> vb_map b !! vkey id n = Some v ->
  from id n b = vkey id n :: from id (n + 1) b.
Proof.
  intros K d id b k n v I Hb O H1 H2 Hv.
  assert (10 ^ k <= n < 10 ^ (k + 1))%N as R by lia.
  assert (10 ^ k <= n + 1 < 10 ^ (k + 1))%N as R' by lia.
  apply sorted_eq.
  - apply filter_sorted, keys_sorted.
  - constructor; [apply filter_sorted, keys_sorted|]. apply Forall_forall. intros x Hx.
    apply (from_in K d id b k) in Hx as (m & w & -> & _ & L & M); [|done..].
    apply vkey_lt. apply (print_N_order k); [done|done|lia].
  - intros x. rewrite elem_of_cons, !(from_in K d id b k) by done. split.
    + intros (m & w & -> & Hw & L & M). destruct (decide (m = n)) as [->|]; [by left|right].
      exists m, w. split_and!; [done|done|lia|lia|lia].
    + intros [->|(m & w & -> & Hw & L & M)].
      * exists n, v. split_and!; [done|done|lia|lia|lia].
      * exists m, w. split_and!; [done|done|lia|lia|lia].
Qed.

Lemma from_head : forall K d id b k n v, inv K d -> d_vers d !! id = Some b -> one_length k d id ->
  (10 ^ k <= n < 10 ^ (k + 1))%N -> vb_map b !! vkey id n = Some v ->
  exists r, from id n b = vkey id n :: r.
Proof.
  intros K d id b k n v I Hb O R Hv. destruct (from id n b) as [|x r] eqn:E.
  - exfalso. assert (vkey id n ∈ from id n b) as X; [|rewrite E in X; by apply elem_of_nil in X].
    apply (from_in K d id b k); [done..|]. exists n, v. split_and!; [done|done|lia|lia|lia].
  - exists r. f_equal.
    assert (StronglySorted klt (from id n b)) as S by apply filter_sorted, keys_sorted.
    assert (x ∈ from id n b) as Hx by (rewrite E; by constructor).
    apply (from_in K d id b k) in Hx as (m & w & -> & Hw & L & M); [|done..].
    assert (vkey id n ∈ from id n b) as Hn by (apply (from_in K d id b k); [done..|]; exists n, v; split_and!; [done|done|lia|lia|lia]).
    rewrite E in Hn, S. apply elem_of_cons in Hn as [Hn|Hn]; [done|]. inversion S as [|? ? _ F]; subst.
    rewrite Forall_forall in F. apply F in Hn. apply vkey_lt in Hn. apply (print_N_order k) in Hn; [lia|done|done].
Qed.

Lemma cached_page : forall K d id b k c, inv K d -> d_vers d !! id = Some b -> one_length k d id ->
  fresh_versions c id d ->
  forall sz n l miss, (10 ^ k <= n)%N -> (n + N.of_nat sz <= 10 ^ (k + 1))%N -> cached_from c id n sz = (l, miss) ->
  l ++ omap (fun x => vb_map b !! x) (take (sz - length l) (from id (default n miss) b)) =
  omap (fun x => vb_map b !! x) (take sz (from id n b)).
Proof.
  intros K d id b k c I Hb O F. induction sz as [|sz IH]; intros n l miss H1 H2 C; cbn [cached_from] in C.
  - injection C as <- <-. done.
  - destruct (c !! ver_key id n) as [r|] eqn:E.
    + destruct (F _ _ E) as (v & -> & G). unfold get_ver in G. rewrite Hb in G.
      destruct (cached_from c id (n + 1) sz) as [l' m'] eqn:C'. injection C as <- <-. cbn [as_ver].
      destruct sz as [|sz].
      * cbn [cached_from] in C'. injection C' as <- <-. cbn [length default].
        destruct (from_head K d id b k n v) as [r ->]; [done..|lia|done|]. cbn. by rewrite G.
      * assert (from id n b = vkey id n :: from id (n + 1) b) as -> by (eapply from_step; [done..|lia|done]).
        specialize (IH (n + 1)%N l' m'). cbn [length]. rewrite firstn_cons. cbn [omap list_omap]. rewrite G.
        rewrite <-IH; [|lia|lia|done]. cbn [app]. f_equal. f_equal.
        replace (S (S sz) - S (length l'))%nat with (S sz - length l')%nat by lia.
        destruct m' as [m|]; [done|]. cbn [default].
        (* everything was cached: nothing is taken *)
        assert (length l' = S sz) as ->; [|by rewrite Nat.sub_diag].
        clear -C'. revert n l' C'. generalize (S sz) as z. induction z as [|z IHz]; intros n l' C'; cbn [cached_from] in C'.
        { by injection C' as <-. }
        destruct (c !! ver_key id (n + 1)); [|done].
        destruct (cached_from c id (n + 1 + 1) z) as [l2 m2] eqn:D. injection C' as <- ->. cbn. f_equal. by eapply IHz.
    + injection C as <- <-. done.
Qed.

Lemma page_same : forall K d id k c n sz, inv K d -> one_length k d id -> fresh_versions c id d ->
  (10 ^ k <= n)%N -> (n + N.of_nat sz <= 10 ^ (k + 1))%N ->
  list_versions_cached c id n sz d = list_versions id n sz d.
Proof.
  intros K d id k c n sz I O F H1 H2. unfold list_versions_cached, list_versions.
  destruct (cached_from c id n sz) as [l miss] eqn:C. destruct (d_vers d !! id) as [b|] eqn:Hb; [|done].
  cbv zeta. f_equal. f_equal. by eapply (cached_page K d id b k c).
Qed.

Lemma fresh_run : forall P d ops id, separate P -> named d -> run_ok P (cstart d) ops -> P id ->
  (forall n, quiet (crun (cstart d) ops) (KVer id n)) ->
  fresh_versions (cs_cache (crun (cstart d) ops)) id (cs_db (crun (cstart d) ops)).
Proof.
  intros P d ops id S N R U Q n r E.
  assert (good P (crun (cstart d) ops)) as G by (apply good_run; [done|by apply good_start|done]).
  destruct (g_cache _ _ G (KVer id n) r U E) as [X|X]; [|by destruct (quiet_busy _ _ (Q n) X)].
  cbn in X. destruct (get_ver id n _); [|done]. injection X as <-. by eexists.
Qed.

(** ** Checking concrete runs *)

Lemma step_ok_same : forall P s o, ids_ok P o -> cs_db (fst (cstep s o)) = cs_db s -> step_ok P s o.
Proof. intros P s o I E. split; [done|]. intros k _ X. by rewrite E in X. Qed.

Lemma quiet_idle : forall s k, Forall (eq []) (cs_pend s) -> quiet s k.
Proof. intros s k F g a Hg Ha. rewrite Forall_forall in F. apply F in Hg as <-. by apply elem_of_nil in Ha. Qed.

Lemma step_ok_idle : forall P s o, ids_ok P o -> Forall (eq []) (cs_pend s) -> (forall k, ~ untold s o k) -> step_ok P s o.
Proof. intros P s o I F T. split; [done|]. intros k _ _. split; [by apply quiet_idle|]. intros X. by apply T in X. Qed.
