From Verif Require Import Str_Model Str_Proofs Util_Proofs Meta_Model Meta_Spec Meta_Proofs Client_Model Churn_Model Estate_Model Estate_Spec.
From stdpp Require Import gmap.

Local Arguments dispatch : simpl never.
Local Arguments get_extra : simpl never.

(** What recording a version does, as calls on the store: any predicate kept by the three calls
    of an upload is kept by it. *)
Lemma record_ind : forall (P : db -> Prop) u d, P d ->
  (forall d, P d -> P (fst (dispatch (command true (AddMetadata (u_id u) (u_meta u))) d))) ->
  (forall d, P d -> P (fst (dispatch (command true (AddVersion (u_id u) (u_ver u))) d))) ->
  (forall d n, P d -> P (fst (dispatch (command true (RemoveVersion (u_id u) n)) d))) ->
  P (fst (record_version u d)).
Proof.
  intros P u d H0 H1 H2 H3. unfold record_version, Churn_Model.run, whole. cbn [fold_left fst].
  set (E := Churn_Model.step).
  assert (K : forall s e p, e ∈ whole 0 -> s_ups s = [(u, p)] -> P (s_db s) ->
    P (s_db (E s e)) /\ exists p', s_ups (E s e) = [(u, p')]).
  { intros s e p He Hs Hd. unfold E, Churn_Model.step. unfold whole in He.
    assert (A : forall e, P (s_db (let (d0, p') := advance e u p (s_db s) in mk_state d0 (<[0%nat:=(u, p')]> (s_ups s)))) /\
      exists p', s_ups (let (d0, p') := advance e u p (s_db s) in mk_state d0 (<[0%nat:=(u, p')]> (s_ups s))) = [(u, p')]).
    { intros e'. rewrite Hs. destruct (advance e' u p (s_db s)) as [d' p'] eqn:Ea. cbn. split; [|by exists p'].
      assert (Q : P (fst (advance e' u p (s_db s)))); [|by rewrite Ea in Q].
      clear Ea d' p'. unfold advance, insert_meta, add_one, remove_one.
      destruct e', p; cbn [fst]; try done; repeat match goal with
        | |- context [match dispatch ?a ?b with _ => _ end] =>
            let X := fresh in assert (X : P (fst (dispatch a b))) by auto; destruct (dispatch a b); cbn [fst] in *
        | |- context [match ?x with _ => _ end] => destruct x; cbn [fst]; try done
        end; try done; auto. }
    rewrite !elem_of_cons in He.
    destruct He as [->|[->|[->|[->|He]]]]; [..|by apply elem_of_nil in He];
      cbn [owner]; rewrite Hs; cbn [lookup list_lookup]; rewrite <-Hs; apply A. }
  destruct (K (mk_state d [(u, Begun)]) (Read 0 true) Begun) as [A1 [p1 B1]]; [by set_solver|done|done|].
  destruct (K _ (Churn_Model.Insert 0 false) p1 ltac:(set_solver) B1 A1) as [A2 [p2 B2]].
  destruct (K _ (Churn_Model.Add 0) p2 ltac:(set_solver) B2 A2) as [A3 [p3 B3]].
  by destruct (K _ (Remove 0) p3 ltac:(set_solver) B3 A3) as [A4 _].
Qed.

Lemma put_cases : forall b n m v a s st,
  fst (put b n m v a s st) = st \/
  exists bk, d_bkt (e_db st) !! b = Some bk /\
    e_db (fst (put b n m v a s st)) =
      fst (record_version (Churn_Model.mk_upload (object_id b n) m v (b_versioning bk) (b_remains bk)) (e_db st)) /\
    v_hash v ∈ e_pieces (fst (put b n m v a s st)) /\ e_pieces st ⊆ e_pieces (fst (put b n m v a s st)) /\
    (forall h, h ∈ e_pieces (fst (put b n m v a s st)) -> h = v_hash v \/ h ∈ e_pieces st).
Proof.
  intros b n m v a s st. unfold put, store. destruct (d_bkt (e_db st) !! b) as [bk|]; [|by left].
  destruct (b_readonly bk); [by left|].
  destruct (a && bool_decide (v_hash v ∈ e_pieces st)) eqn:F; [right|destruct s; [right|by left]];
    exists bk; (split; [done|]); cbn [orb fst e_db e_pieces]; (split; [done|]).
  - apply andb_true_iff in F as [_ F]. apply bool_decide_eq_true in F. set_solver.
  - set_solver.
Qed.

Lemma pieces_grow : forall st o, e_pieces st ⊆ e_pieces (fst (step st o)).
Proof.
  intros st [b n m v a s|c]; cbn [step fst].
  - destruct (put_cases b n m v a s st) as [->|(bk & _ & _ & _ & H & _)]; [done|done].
  - unfold manage. destruct (manages c); done.
Qed.

(** ** Objects come from uploads *)

Definition from_uploads (ops : list op) (d : db) : Prop :=
  forall id, is_Some (d_meta d !! id) -> exists b n m v a s, In (Put b n m v a s) ops /\ id = object_id b n.

Lemma from_effect : forall ops d c d', effect d c d' -> from_uploads ops d ->
  (forall id m, c = AddMetadata id m -> exists b n m v a s, In (Put b n m v a s) ops /\ id = object_id b n) ->
  from_uploads ops d'.
Proof.
  intros ops d c d' X H N. destruct X; try exact H; intros i Hi; cbn in Hi.
  - apply lookup_insert_is_Some in Hi as [<-|[_ Hi]]; [|by apply H]. apply H. by eexists.
  - apply lookup_insert_is_Some in Hi as [<-|[_ Hi]]; [|by apply H]. by eapply N.
  - apply lookup_delete_is_Some in Hi as [_ Hi]. by apply H.
Qed.

Lemma run_snoc : forall st ops o, run st (ops ++ [o]) = fst (step (run st ops) o).
Proof. intros. unfold run. by rewrite fold_left_app. Qed.

Lemma from_run : forall ops, from_uploads ops (e_db (run nothing ops)).
Proof.
  intros ops. induction ops as [|o ops IH] using rev_ind.
  - intros id [x Hx]. cbn in Hx. by rewrite lookup_empty in Hx.
  - assert (W : from_uploads (ops ++ [o]) (e_db (run nothing ops))).
    { intros id Hi. destruct (IH id Hi) as (b & n & m & v & a & s & X & Y). exists b, n, m, v, a, s.
      split; [|done]. apply in_app_iff. by left. }
    rewrite run_snoc. destruct o as [b n m v a s|c]; cbn [step fst].
    + destruct (put_cases b n m v a s (run nothing ops)) as [->|(bk & _ & -> & _)]; [done|].
      apply record_ind; [done|..]; intros; (eapply from_effect; [apply dispatch_effect|done|]); cbn [u_id u_meta u_ver].
      * intros id m' X. injection X as <- <-. exists b, n, m, v, a, s. split; [|done].
        apply in_app_iff. right. by left.
      * intros id m' X. by inversion X.
      * intros id m' X. by inversion X.
    + unfold manage. destruct (manages c) eqn:M; [|done]. cbn [fst e_db].
      eapply from_effect; [apply dispatch_effect|done|]. intros id m ->. done.
Qed.

Lemma object_id_inj : forall b n b' n', ~ In "/"%char b -> ~ In "/"%char b' ->
  object_id b n = object_id b' n' -> b = b'.
Proof.
  unfold object_id. intros b n. induction b as [|x b IH]; intros [|y b'] n' H H' E; cbn in *.
  - done.
  - injection E as E _. exfalso. apply H'. by left.
  - injection E as E _. exfalso. apply H. by left.
  - injection E as <- E. f_equal. eapply IH; [| |exact E]; naive_solver.
Qed.

Lemma untouched_empty : forall ops bucket, ~ In "/"%char bucket -> Forall (elsewhere bucket) ops ->
  empty_bucket bucket (run nothing ops).
Proof.
  intros ops bucket Hb Ho name n. unfold get.
  destruct (d_meta (e_db (run nothing ops)) !! object_id bucket name) as [m|] eqn:Em; [|done].
  destruct (from_run ops (object_id bucket name)) as (b & n' & m' & v & a & s & X & Y); [by eexists|].
  rewrite Forall_forall in Ho. apply elem_of_list_In in X. apply Ho in X as [N S].
  apply object_id_inj in Y; [|done..]. by subst.
Qed.

(** ** Bytes are there *)

Definition all_hashes (P : gset str) (d : db) : Prop := forall id n v, get_ver id n d = Some v -> v_hash v ∈ P.

Lemma hashes_effect : forall P d c d', effect d c d' -> all_hashes P d ->
  (forall id v, c = AddVersion id v \/ c = MigrateVersion id v -> v_hash v ∈ P) -> all_hashes P d'.
Proof.
  intros P d c d' X H N. destruct X; try exact H; intros i k w; unfold with_vers, with_meta, with_hash, with_uid; cbn [d_meta d_vers d_hash d_uid d_bkt].
  - rewrite gv_clear. destruct (decide _); [done|]. apply H.
  - rewrite gv_drop. destruct (decide _); [done|]. apply H.
  - rewrite (gv_put d id b) by done. destruct (decide _); [|apply H]. intros [= <-]. cbn. apply (N id v). by left.
  - rewrite (gv_put d id b) by done. destruct (decide _); [|apply H]. intros [= <-]. apply (N id v). by right.
  - rewrite (gv_del d id b) by done. destruct (decide _); [done|]. apply H.
  - rewrite (gv_put d id b) by done. destruct (decide _); [|apply H]. intros [= <-].
    apply (H id n origin). unfold get_ver. by rewrite H0.
  - rewrite gv_clear. destruct (decide _); [done|]. apply H.
Qed.

Lemma hashes_weaken : forall P Q d, P ⊆ Q -> all_hashes P d -> all_hashes Q d.
Proof. intros P Q d S H id n v X. apply S. by eapply H. Qed.

Lemma hashes_step : forall st o, all_hashes (e_pieces st) (e_db st) ->
  all_hashes (e_pieces (fst (step st o))) (e_db (fst (step st o))).
Proof.
  intros st [b n m v a s|c] H; cbn [step fst].
  - destruct (put_cases b n m v a s st) as [->|(bk & _ & -> & Hv & Hs & _)]; [done|].
    apply record_ind; [by eapply hashes_weaken|..]; intros; (eapply hashes_effect; [apply dispatch_effect|done|]);
      cbn [u_id u_meta u_ver]; intros id w [X|X]; inversion X; by subst.
  - unfold manage. destruct (manages c) eqn:M; [|done]. cbn [fst e_db e_pieces].
    eapply hashes_effect; [apply dispatch_effect|done|]. intros id v [->| ->]; done.
Qed.

Lemma hashes_run : forall ops, all_hashes (e_pieces (run nothing ops)) (e_db (run nothing ops)).
Proof.
  intros ops. induction ops as [|o ops IH] using rev_ind.
  - intros id n v X. cbn in X. unfold get_ver in X. cbn in X. by rewrite lookup_empty in X.
  - rewrite run_snoc. by apply hashes_step.
Qed.

Lemma service_ver : forall id n d v, service_get_version id n d = Some v -> exists k, get_ver id k d = Some v.
Proof. intros id n d v. unfold service_get_version. destruct (n <=? 0)%Z; eauto. Qed.

Lemma pieces_brought : forall ops h, h ∈ e_pieces (run nothing ops) -> Exists (brings h) ops.
Proof.
  intros ops h. induction ops as [|o ops IH] using rev_ind.
  - intros X. cbn in X. by apply elem_of_empty in X.
  - rewrite run_snoc. intros X. apply Exists_app.
    assert (h ∈ e_pieces (run nothing ops) \/ brings h o) as [Y|Y]; [|by left; apply IH|right; by constructor].
    destruct o as [b n m v a s|c]; cbn [step fst] in X.
    + destruct (put_cases b n m v a s (run nothing ops)) as [Z|(bk & _ & _ & _ & _ & Z)]; [rewrite Z in X; by left|].
      apply Z in X as [X|X]; [by right|by left].
    + unfold manage in X. destruct (manages c); by left.
Qed.

(** ** Others are left alone *)

Definition call_id (c : call) : option str :=
  match c with
  | AddMetadata i _ | RemoveMetadata i | UpdateMetadata i _ | AddVersion i _ | MigrateVersion i _
  | RemoveVersion i _ | UpdateVersion i _ _ | RemoveVersions i => Some i
  | _ => None
  end.

Lemma effect_other : forall d c d' id, effect d c d' -> call_id c <> Some id ->
  d_meta d' !! id = d_meta d !! id /\ d_vers d' !! id = d_vers d !! id.
Proof.
  intros d c d' id X N. destruct X; cbn in N; cbn; try done;
    rewrite ?lookup_insert_ne, ?lookup_delete_ne by congruence; done.
Qed.

Lemma get_same : forall b n k st st', e_pieces st' = e_pieces st ->
  d_meta (e_db st') !! object_id b n = d_meta (e_db st) !! object_id b n ->
  d_vers (e_db st') !! object_id b n = d_vers (e_db st) !! object_id b n ->
  get b n k st' = get b n k st.
Proof.
  intros b n k st st' P M V. unfold get, service_get_version, last_version_number, get_ver. by rewrite P, M, V.
Qed.

Lemma manage_other : forall b n k c st, ~ about b n c -> get b n k (fst (step st (Manage c))) = get b n k st.
Proof.
  intros b n k c st A. cbn [step]. unfold manage. destruct (manages c); [|done]. cbn [fst].
  destruct (effect_other (e_db st) c _ (object_id b n) (dispatch_effect true c (e_db st))) as [M V].
  - intros X. apply A. destruct c; cbn in *; injection X || done; by intros ->.
  - by apply get_same.
Qed.

Lemma remove_version_other : forall b n k j st, (0 < k)%Z -> k <> Z.of_N j ->
  get b n k (fst (step st (Manage (RemoveVersion (object_id b n) j)))) = get b n k st.
Proof.
  intros b n k j st Hk Hj. cbn [step]. unfold manage. cbn [manages fst].
  set (c := RemoveVersion (object_id b n) j).
  pose proof (dispatch_effect true c (e_db st)) as X.
  destruct (dispatch (command true c) (e_db st)) as [d' r]. cbn [fst] in *. unfold c in X.
  unfold get, service_get_version. cbn [e_db e_pieces].
  destruct (Z.leb_spec k 0); [lia|].
  inversion X; subst; [done| |destruct H0 as [[? [?|?]]|[? ?]]; done].
  unfold with_vers, with_uid, with_hash. cbn [d_meta d_vers d_hash d_uid d_bkt].
  rewrite (gv_del (e_db st) (object_id b n) b0) by done. rewrite decide_False; [done|]. intros [_ Y]. lia.
Qed.

(** ** Bytes pile up *)

Definition heap_name (i : nat) : str := "h"%char :: print_N (N.of_nat i).
Definition heap_version (i : nat) : version := mk_version false 1 1 0 0 1 1 0 (heap_name i) (heap_name i) [].
Definition heap_bucket : bucket := mk_bucket true false false 0 0 0 10 1 1 (s2l "b") [].
Definition heap_meta : metadata := mk_metadata (s2l "o") (s2l "b") 1 1.
Definition heap_id : str := object_id (s2l "b") (s2l "o").
Definition heap_pair (i : nat) : list op :=
  [Put (s2l "b") (s2l "o") heap_meta (heap_version i) true true; Manage (RemoveMetadata heap_id)].
Fixpoint heap (k : nat) : list op :=
  match k with O => [Manage (CreateBucket heap_bucket)] | S i => heap i ++ heap_pair i end.

Lemma heap_name_inj : forall i j, heap_name i = heap_name j -> i = j.
Proof. intros i j X. injection X as X. apply print_N_inj in X. lia. Qed.

Definition heap_ok (k : nat) (st : estate) : Prop :=
  d_bkt (e_db st) !! s2l "b" = Some heap_bucket /\ (forall id, d_meta (e_db st) !! id = None) /\
  (forall id, d_vers (e_db st) !! id = None) /\
  (forall j, (k <= j)%nat -> idx_get (heap_name j) (d_uid (e_db st)) = ∅) /\
  (forall j, (k <= j)%nat -> heap_name j ∉ e_pieces st) /\ size (e_pieces st) = k.

Lemma told_app : forall a b st, told st (a ++ b) = told st a ++ told (run st a) b.
Proof. intros a. induction a as [|o a IH]; intros b st; cbn [told app]; [done|]. by rewrite IH. Qed.

Lemma heap_step : forall k st, heap_ok k st ->
  told st (heap_pair k) = [true; true] /\ heap_ok (S k) (run st (heap_pair k)).
Proof.
  intros k [d P] (B & M & V & U & H & Z). cbn [e_db e_pieces] in *.
  set (u := Churn_Model.mk_upload heap_id heap_meta (heap_version k) true 10).
  set (d1 := mk_db (<[heap_id := heap_meta]> (d_meta d)) (<[heap_id := mk_vbucket 0 ∅]> (d_vers d)) (d_hash d) (d_uid d) (d_bkt d)).
  assert (D1 : dispatch (command true (AddMetadata heap_id heap_meta)) d = (d1, RStatus 200 None)).
  { unfold dispatch, apply_metadata. cbn [command rd_dest rd_type rd_meta rd_name]. unfold add_meta. rewrite M.
    rewrite create_version_bucket_eq, decide_False by done. rewrite V. done. }
  assert (D2 : exists hi ui, dispatch (command true (AddVersion heap_id (heap_version k))) d1 =
    (mk_db (d_meta d1) (<[heap_id := mk_vbucket 1 (<[vkey heap_id 1 := with_seq 1 (heap_version k)]> ∅)]> (d_vers d1)) hi ui (d_bkt d), RStatus 200 (Some 1%N)) /\
    idx_add (heap_name k) (vkey heap_id 1) (d_uid d) = Some ui).
  { assert (L : d_vers d1 !! heap_id = Some (mk_vbucket 0 ∅)) by apply lookup_insert.
    assert (E : uid_exists d1 (heap_name k) = false).
    { unfold uid_exists. cbn [d1 d_uid]. rewrite U by lia. done. }
    assert (AS : add_ver_seq heap_id (heap_version k) d1 = 1%N).
    { unfold add_ver_seq. rewrite L. change (v_uid (heap_version k)) with (heap_name k). by rewrite E. }
    destruct (idx_add (heap_name k) (vkey heap_id 1) (d_hash d1)) as [hi|] eqn:Eh; [|by apply idx_add_none in Eh].
    destruct (idx_add (heap_name k) (vkey heap_id 1) (d_uid d1)) as [ui|] eqn:Eu; [|by apply idx_add_none in Eu].
    exists hi, ui. split; [|done].
    assert (AV : add_ver heap_id (heap_version k) d1 = inl (mk_db (d_meta d1) (<[heap_id := mk_vbucket 1 (<[vkey heap_id 1 := with_seq 1 (heap_version k)]> ∅)]> (d_vers d1)) hi ui (d_bkt d))).
    { unfold add_ver. rewrite L. change (v_uid (heap_version k)) with (heap_name k). change (v_hash (heap_version k)) with (heap_name k).
      rewrite E. cbn [vb_map]. change (next_seq (mk_vbucket 0 ∅)) with 1%N. rewrite lookup_empty, Eh, Eu. done. }
    unfold dispatch, apply_version. cbn [command rd_dest rd_type rd_ver rd_name rd_batch].
    unfold repo_add_version, repo_add_version_seq. cbn [negb andb]. rewrite AV, AS. done. }
  destruct D2 as (hi & ui & D2 & Eu).
  assert (R : record_version u d = (mk_db (d_meta d1) (<[heap_id := mk_vbucket 1 (<[vkey heap_id 1 := with_seq 1 (heap_version k)]> ∅)]> (d_vers d1)) hi ui (d_bkt d), Some 1%N)).
  { assert (X1 : get_extra heap_id d = None) by (unfold get_extra; by rewrite V).
    unfold record_version.
    assert (Y : Churn_Model.run (mk_state d [(u, Begun)]) (whole 0) =
      mk_state (mk_db (d_meta d1) (<[heap_id := mk_vbucket 1 (<[vkey heap_id 1 := with_seq 1 (heap_version k)]> ∅)]> (d_vers d1)) hi ui (d_bkt d)) [(u, Finished 1)]); [|by rewrite Y].
    unfold Churn_Model.run, whole. cbn [fold_left].
    unfold Churn_Model.step at 4. cbn [owner s_ups lookup list_lookup advance]. change (u_id u) with heap_id. cbn [s_db]. rewrite X1.
    unfold Churn_Model.step at 3. cbn [owner s_ups s_db lookup list_lookup insert list_insert advance]. unfold insert_meta.
    change (u_id u) with heap_id. change (u_meta u) with heap_meta. rewrite M, D1.
    unfold Churn_Model.step at 2. cbn [owner s_ups s_db lookup list_lookup insert list_insert advance]. unfold add_one.
    change (u_id u) with heap_id. change (u_ver u) with (heap_version k). rewrite D2.
    unfold Churn_Model.step at 1. cbn [owner s_ups s_db lookup list_lookup insert list_insert advance]. done. }
  set (d2 := mk_db (d_meta d1) (<[heap_id := mk_vbucket 1 (<[vkey heap_id 1 := with_seq 1 (heap_version k)]> ∅)]> (d_vers d1)) hi ui (d_bkt d)) in *.
  assert (S1 : step (mk_estate d P) (Put (s2l "b") (s2l "o") heap_meta (heap_version k) true true) = (mk_estate d2 ({[heap_name k]} ∪ P), true)).
  { cbn [step]. unfold put, store. cbn [e_db e_pieces]. rewrite B. change (b_readonly heap_bucket) with false. cbv iota.
    change (v_hash (heap_version k)) with (heap_name k). rewrite bool_decide_false by (by apply H). cbn [andb orb].
    change (b_versioning heap_bucket) with true. change (b_remains heap_bucket) with 10%Z.
    fold heap_id u. rewrite R. done. }
  set (d3 := mk_db (delete heap_id (d_meta d2)) (delete heap_id (d_vers d2)) hi ui (d_bkt d)).
  assert (S2 : step (mk_estate d2 ({[heap_name k]} ∪ P)) (Manage (RemoveMetadata heap_id)) = (mk_estate d3 ({[heap_name k]} ∪ P), true)).
  { cbn [step]. unfold manage. cbn [manages e_db e_pieces]. unfold dispatch, apply_metadata. cbn [command rd_dest rd_type rd_meta rd_name].
    assert (RM : remove_meta heap_id d2 = inl d3).
    { unfold remove_meta. assert (L : d_meta d2 !! heap_id = Some heap_meta) by apply lookup_insert. rewrite L.
      unfold remove_version_bucket. cbn [with_meta d_vers].
      assert (L2 : d_vers d2 !! heap_id = Some (mk_vbucket 1 (<[vkey heap_id 1 := with_seq 1 (heap_version k)]> ∅))) by apply lookup_insert.
      rewrite L2. done. }
    rewrite RM. done. }
  unfold heap_pair. unfold run. cbn [told fold_left]. rewrite S1. cbn [fst snd]. rewrite S2. cbn [fst snd]. split; [done|].
  split; [exact B|]. split; [|split; [|split; [|split]]]; cbn [e_db e_pieces].
  - intros id. unfold d3, d2, d1. cbn [d_meta]. rewrite delete_insert_delete. destruct (decide (heap_id = id)) as [<-|Ni].
    + by rewrite lookup_delete.
    + by rewrite lookup_delete_ne.
  - intros id. unfold d3, d2, d1. cbn [d_vers]. rewrite !delete_insert_delete. destruct (decide (heap_id = id)) as [<-|Ni].
    + by rewrite lookup_delete.
    + by rewrite lookup_delete_ne.
  - intros j Hj. unfold d3. cbn [d_uid]. apply idx_add_get with (h' := heap_name j) in Eu as ->.
    rewrite decide_False; [apply U; lia|]. intros X. apply heap_name_inj in X. lia.
  - intros j Hj X. apply elem_of_union in X as [X|X]; [|by apply (H j ltac:(lia))].
    apply elem_of_singleton in X. apply heap_name_inj in X. lia.
  - rewrite size_union; [rewrite size_singleton; lia|]. apply disjoint_singleton_l. by apply H.
Qed.

Lemma heap_facts : forall k, Forall (fun b => b = true) (told nothing (heap k)) /\ heap_ok k (run nothing (heap k)).
Proof.
  intros k. induction k as [|k [IH1 IH2]].
  - split; [by repeat constructor|]. split; [by vm_compute|].
    repeat split; cbn [e_db e_pieces]; intros; try done; try (by rewrite lookup_empty); try (by apply not_elem_of_empty).
  - cbn [heap]. destruct (heap_step k _ IH2) as [A B]. split.
    + rewrite told_app, A. apply Forall_app. split; [done|]. by repeat constructor.
    + unfold run. rewrite fold_left_app. exact B.
Qed.

(** ** Buckets are left alone *)

Lemma effect_bkt : forall d c d', effect d c d' -> (forall b, c <> CreateBucket b) -> (forall b, c <> UpdateBucket b) ->
  (forall n, c <> DeleteBucket n) -> d_bkt d' = d_bkt d.
Proof.
  intros d c d' X A B C. destruct X; try done.
  destruct H as [[b [->| ->]]|[n ->]]; [by destruct (A b)|by destruct (B b)|by destruct (C n)].
Qed.

Lemma store_bkt : forall b bucket name m v a s st, d_bkt (e_db (fst (store b bucket name m v a s st))) = d_bkt (e_db st).
Proof.
  intros b bucket name m v a s st. unfold store. destruct (b_readonly b); [done|]. destruct (_ || s); [|done].
  cbn [fst e_db]. apply (record_ind (fun d => d_bkt d = d_bkt (e_db st))); [done|..]; intros;
    (erewrite effect_bkt; [eassumption|apply dispatch_effect|done..]).
Qed.
