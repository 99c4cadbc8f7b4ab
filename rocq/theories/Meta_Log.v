(** Proofs about the replicated log: batching and replay. *)
From Verif Require Import Str_Model Meta_Model Meta_Spec Meta_Proofs Meta_History Meta_Ids.
From stdpp Require Import gmap.
Local Arguments N.pow : simpl never.
Local Arguments N.modulo : simpl never.
Local Arguments N.add : simpl never.
Local Arguments N.max : simpl never.

(** ** Batches *)

Lemma decode_full : forall old r, rd_batch r = rd_batch old -> decode_into old (raft_data_fields r) = (r, true).
Proof. intros [] [] H. cbn in H. subst. done. Qed.

Lemma decode_bad : forall fs old, FBad ∈ fs -> exists r, decode_into old fs = (r, false).
Proof.
  induction fs as [|f fs IH]; intros old H; [by apply elem_of_nil in H|].
  apply elem_of_cons in H as [<-|H]; [by exists old|].
  destruct f; cbn [decode_into]; try (by apply IH). by exists old.
Qed.

Lemma lone_bad : forall d fs, FBad ∈ fs -> lone d (EnCmd fs) = (d, RErr).
Proof.
  intros d fs H. unfold lone. repeat (destruct fs as [|[] fs]; try done).
  exfalso. repeat (apply elem_of_cons in H as [H|H]; [done|]). by apply elem_of_nil in H.
Qed.

Lemma batch_loop_lone : forall es data d, Forall whole es -> batch_loop data d es = run_with lone d es.
Proof.
  induction es as [|e es IH]; intros data d H; [done|]. apply Forall_cons in H as [He H].
  destruct e as [| |fs]; cbn [batch_loop run_with].
  - rewrite IH by done. cbn. done.
  - rewrite IH by done. cbn. done.
  - destruct He as [[r ->]|Hb].
    + assert (decode_into data (raft_data_fields r) =
        (mk_raft_data (rd_type r) (rd_dest r) (rd_name r) (rd_seq r) (rd_ver r) (rd_meta r) (rd_bkt r) (rd_batch data), true))
        as -> by (by destruct data, r).
      unfold set_batch, lone, raft_data_fields. cbn [rd_type rd_dest rd_name rd_seq rd_ver rd_meta rd_bkt rd_batch].
      destruct (dispatch _ d) as [d1 x]. by rewrite IH.
    + destruct (decode_bad fs data Hb) as [r ->]. rewrite IH, lone_bad by done. done.
Qed.

Lemma run_with_app : forall {E R} (f : db -> E -> db * R) a b d,
  run_with f d (a ++ b) =
  let (d1, r1) := run_with f d a in let (d2, r2) := run_with f d1 b in (d2, r1 ++ r2).
Proof.
  induction a as [|e a IH]; intros b d; cbn [run_with app].
  - by destruct (run_with f d b).
  - destruct (f d e) as [d1 r]. rewrite IH. destruct (run_with f d1 a) as [d2 r2]. by destruct (run_with f d2 b).
Qed.

Lemma batches_agree : forall bs d, Forall whole (List.concat bs) ->
  let (d', rs) := run_with fsm_apply_batch d bs in
  (d', List.concat rs) = run_with lone d (List.concat bs).
Proof.
  induction bs as [|b bs IH]; intros d H; [done|]. cbn [run_with List.concat] in *.
  apply Forall_app in H as [Hb H]. unfold fsm_apply_batch at 1. rewrite batch_loop_lone by done.
  rewrite run_with_app. destruct (run_with lone d b) as [d1 r1]. specialize (IH d1 H).
  destruct (run_with fsm_apply_batch d1 bs) as [d2 rs]. rewrite <-IH. done.
Qed.

Lemma single_vs_batch : forall d r, careful r ->
  run_with fsm_apply d [EnCmd (raft_data_fields r)] = fsm_apply_batch d [EnCmd (raft_data_fields r)].
Proof.
  intros d [t de nm q v m b bt] [H1 H2]. unfold fsm_apply_batch.
  rewrite batch_loop_lone by (constructor; [left; by eexists|done]).
  cbn [run_with]. unfold fsm_apply, lone, raft_data_fields, decode_into.
  cbn -[dispatch]. cbn in H1, H2.
  assert (dispatch (mk_raft_data t de nm q v m b false) d = dispatch (mk_raft_data t de nm q v m b true) d) as ->; [|done].
  unfold dispatch. destruct de; cbn; try done.
  - unfold apply_version. cbn. destruct t; try done; destruct v as [v|]; try done;
      destruct (H1 v eq_refl) as [A B]; unfold repo_add_version, repo_add_version_seq, repo_add_version_raft;
      assert (nonempty_ids v = true) as -> by (unfold nonempty_ids; destruct (v_hash v); [done|]; by destruct (v_uid v)); done.
  - unfold apply_metadata. cbn. destruct t; try done. destruct m; [done|]. by destruct H2.
Qed.

(** ** Replay *)

Definition absorbed (c : call) (d : db) : Prop :=
  match c with
  | AddMetadata id m => id = [] \/ d_meta d !! id <> None
  | UpdateMetadata id m => exists o, d_meta d !! id = Some o /\ (m_utime m <= m_utime o)%Z
  | AddVersion id v => v_hash v = [] \/ v_uid v = [] \/ idx_get (v_uid v) (d_uid d) <> ∅
  | RemoveVersion id n => exists b, d_vers d !! id = Some b /\ (n <= vb_seq b)%N /\ vb_map b !! vkey id n = None
  | UpdateVersion id n v => exists b, d_vers d !! id = Some b /\ (n <= vb_seq b)%N /\
      forall v0, vb_map b !! vkey id n = Some v0 -> (v_ts v <= v_ts v0)%Z
  | CreateBucket b => b_name b = [] \/ d_bkt d !! b_name b <> None
  | UpdateBucket b => b_name b = [] \/ exists b0, d_bkt d !! b_name b = Some b0 /\ (b_utime b <= b_utime b0)%Z
  | _ => False
  end.

Notation step1 d c := (fst (dispatch (command true c) d)).

Lemma absorbed_same : forall c d, inv_dom d -> absorbed c d -> step1 d c = d.
Proof.
  intros c d D A. destruct c as [id m| |id m|id v| |id n|id n v| |b| |b]; try done.
  - cbn in *. unfold add_meta. destruct (d_meta d !! id) eqn:E; [done|].
    destruct A as [A|A]; [|done]. rewrite create_version_bucket_eq. by rewrite decide_True.
  - destruct A as (o & G & L). by rewrite (stale_meta_refused _ _ _ _ _ G L).
  - cbn in *. unfold repo_add_version. cbn. unfold add_ver. destruct (d_vers d !! id) as [b|]; [|done].
    destruct (uid_exists d (v_uid v)) eqn:U; [done|]. destruct (vb_map b !! _); [done|].
    destruct A as [A|[A|A]].
    + by rewrite A.
    + rewrite A. cbn. by destruct (idx_add (v_hash v) _ _).
    + exfalso. unfold uid_exists in U. apply negb_false_iff in U. by apply bool_decide_eq_true in U.
  - destruct A as (b & G & _ & K). cbn. unfold remove_ver. by rewrite G, K.
  - destruct A as (b & G & _ & K). cbn. unfold update_ver. rewrite G. cbn.
    destruct (vb_map b !! vkey id n) as [v0|]; [|done]. specialize (K v0 eq_refl).
    destruct (Z.leb_spec (v_ts v) (v_ts v0)); [done|lia].
  - cbn in *. unfold bkt_create. destruct (b_name b) eqn:E; [done|]. destruct A as [A|A]; [done|].
    by destruct (d_bkt d !! _).
  - cbn in *. unfold bkt_update. destruct (b_name b) eqn:E; [done|]. destruct A as [A|(b0 & A & L)]; [done|].
    rewrite A. destruct (Z.leb_spec (b_utime b) (b_utime b0)); [done|lia].
Qed.

Definition benign (c : call) : Prop :=
  match c with
  | MigrateVersion _ _ | RemoveMetadata _ | RemoveVersions _ | DeleteBucket _ => False
  | _ => True
  end.

Lemma on_target_benign : forall d c, on_target d c -> benign c.
Proof. intros d c H. by destruct c. Qed.

Lemma bkt_step : forall d c n b0, benign c -> d_bkt d !! n = Some b0 ->
  exists b1, d_bkt (step1 d c) !! n = Some b1 /\ (b_utime b0 <= b_utime b1)%Z.
Proof.
  intros d c n b0 Hb G.
  assert (effect d c (step1 d c)) as E by apply dispatch_effect.
  assert ((exists b, c = CreateBucket b \/ c = UpdateBucket b) \/
          ~ (exists b, c = CreateBucket b \/ c = UpdateBucket b)) as [[b Hc]|X].
  { destruct c; try (right; intros (? & [X|X]); discriminate); left; eexists; [by left|by right]. }
  all: swap 1 2.
  { exists b0. split; [|lia]. set (d' := step1 d c) in *. clearbody d'. destruct E; try done.
    destruct H as [H|[x ->]]; [done|]. done. }
  destruct Hc as [-> | ->]; cbn.
  - unfold bkt_create. destruct (b_name b) eqn:Eb; [exists b0; split; [done|lia]|]. rewrite <-Eb.
    destruct (d_bkt d !! b_name b) eqn:L; [exists b0; split; [done|lia]|]. cbn.
    exists b0. split; [|lia]. rewrite lookup_insert_ne; [done|]. intros X. congruence.
  - unfold bkt_update. destruct (b_name b) eqn:Eb; [exists b0; split; [done|lia]|]. rewrite <-Eb.
    destruct (d_bkt d !! b_name b) as [o|] eqn:L; [|exists b0; split; [done|lia]].
    destruct (Z.leb_spec (b_utime b) (b_utime o)); [exists b0; split; [done|lia]|]. cbn.
    destruct (decide (b_name b = n)) as [<-|N].
    + rewrite lookup_insert. eexists; split; [done|]. cbn. assert (o = b0) by congruence. subst. lia.
    + rewrite lookup_insert_ne by done. exists b0. split; [done|lia].
Qed.

Lemma absorbed_keep : forall K d c c', inv K d -> (K + 1 < 2 ^ 64)%N -> absorbed c d -> benign c' ->
  (forall id v, c = AddVersion id v -> forall id' n' v', get_ver id' n' d = Some v' -> v_hash v' <> v_uid v) ->
  absorbed c (step1 d c').
Proof.
  intros K d c c' I HK A Hb Hu. pose proof (dispatch_effect true c' d) as E.
  destruct c as [id m| |id m|id v| |id n|id n v| |b| |b]; try done; cbn in A |- *.
  - destruct A as [A|A]; [by left|right]. destruct (d_meta d !! id) as [m0|] eqn:G; [|done].
    assert (c' <> RemoveMetadata id) as R by (by intros ->).
    by destruct (meta_effect _ _ _ _ _ E R G) as (m' & -> & _).
  - destruct A as (o & G & L).
    assert (c' <> RemoveMetadata id) as R by (by intros ->).
    destruct (meta_effect _ _ _ _ _ E R G) as (m' & -> & (_ & _ & S)).
    exists m'. split; [done|]. destruct S as [->|S]; lia.
  - destruct A as [A|[A|A]]; [by left|right; by left|right; right].
    set (d' := step1 d c') in *. clearbody d'.
    destruct E as [c|i m o Hm0|i m Hn0 Hv|i m Hm0|i v0 b0 hi ui Hb0 Hu0 Hk Hh Hi|i v0 b0 hi ui Hb0 Hu0 Hk Hh Hi|i n0 b0 v0 Hb0 Hk
      |i n0 v0 b0 o Hb0 Hk Ht|i b0 Hb0|c m Hc]; cbn; try done.
    + rewrite (idx_add_get _ _ _ _ Hi). destruct (decide _); [set_solver|done].
    + rewrite idx_remove_get. destruct (decide _) as [X|]; [|done]. exfalso.
      eapply (Hu id v eq_refl i n0 v0); [|done]. unfold get_ver. by rewrite Hb0.
  - destruct A as (b & G & L & N).
    set (d' := step1 d c') in *. clearbody d'.
    destruct E as [c|i m o Hm0|i m Hn0 Hv|i m Hm0|i v0 b0 hi ui Hb0 Hu0 Hk Hh Hi|i v0 b0 hi ui Hb0 Hu0 Hk Hh Hi|i n0 b0 v0 Hb0 Hk
      |i n0 v0 b0 o Hb0 Hk Ht|i b0 Hb0|c m Hc]; cbn; try done; try (by exists b).
    + rewrite lookup_insert_ne by congruence. by exists b.
    + destruct (decide (i = id)) as [->|Ne]; [|rewrite lookup_insert_ne by done; by exists b].
      rewrite lookup_insert. eexists; split; [done|]. cbn. replace b0 with b in * by congruence.
      assert (next_seq b = vb_seq b + 1)%N as NS by (apply next_seq_lt; apply I in G as [? _]; lia).
      rewrite NS. split; [lia|]. rewrite lookup_insert_ne; [done|]. intros X. apply vkey_inj in X. lia.
    + destruct (decide (i = id)) as [->|Ne]; [|rewrite lookup_insert_ne by done; by exists b].
      rewrite lookup_insert. eexists; split; [done|]. cbn. replace b0 with b in * by congruence.
      split; [done|]. apply lookup_delete_None. by right.
    + destruct (decide (i = id)) as [->|Ne]; [|rewrite lookup_insert_ne by done; by exists b].
      rewrite lookup_insert. eexists; split; [done|]. cbn. replace b0 with b in * by congruence.
      split; [done|]. rewrite lookup_insert_ne; [done|]. intros X. congruence.
  - destruct A as (b & G & L & N).
    set (d' := step1 d c') in *. clearbody d'.
    destruct E as [c|i m o Hm0|i m Hn0 Hv|i m Hm0|i v0 b0 hi ui Hb0 Hu0 Hk Hh Hi|i v0 b0 hi ui Hb0 Hu0 Hk Hh Hi|i n0 b0 v0 Hb0 Hk
      |i n0 v0 b0 o Hb0 Hk Ht|i b0 Hb0|c m Hc]; cbn; try done; try (by exists b).
    + rewrite lookup_insert_ne by congruence. by exists b.
    + destruct (decide (i = id)) as [->|Ne]; [|rewrite lookup_insert_ne by done; by exists b].
      rewrite lookup_insert. eexists; split; [done|]. cbn. replace b0 with b in * by congruence.
      assert (next_seq b = vb_seq b + 1)%N as NS by (apply next_seq_lt; apply I in G as [? _]; lia).
      rewrite NS. split; [lia|]. rewrite lookup_insert_ne; [done|]. intros X. apply vkey_inj in X. lia.
    + destruct (decide (i = id)) as [->|Ne]; [|rewrite lookup_insert_ne by done; by exists b].
      rewrite lookup_insert. eexists; split; [done|]. cbn. replace b0 with b in * by congruence.
      split; [done|]. intros w X. apply lookup_delete_Some in X as [_ X]. by apply N.
    + destruct (decide (i = id)) as [->|Ne]; [|rewrite lookup_insert_ne by done; by exists b].
      rewrite lookup_insert. eexists; split; [done|]. cbn. replace b0 with b in * by congruence.
      split; [done|]. intros w X. apply lookup_insert_Some in X as [[Xk <-]|[_ X]]; [|by apply N].
      rewrite Xk in Hk. apply N in Hk. cbn. lia.
  - destruct A as [A|A]; [by left|right]. destruct (d_bkt d !! b_name b) as [b0|] eqn:G; [|done].
    by destruct (bkt_step _ _ _ _ Hb G) as (b1 & -> & _).
  - destruct A as [A|(b0 & G & L)]; [by left|right].
    destruct (bkt_step _ _ _ _ Hb G) as (b1 & -> & L1). exists b1. split; [done|lia].
Qed.

Lemma absorbed_after : forall K d c, inv K d -> (K + 1 < 2 ^ 64)%N -> inv_dom d -> on_target d c ->
  absorbed c (step1 d c).
Proof.
  intros K d c I HK D T.
  destruct c as [id m| |id m|id v| |id n|id n v| |b| |b]; try done; cbn in T |- *.
  - destruct (decide (id = [])) as [->|Ni]; [by left|right].
    unfold add_meta. destruct (d_meta d !! id) eqn:G; [cbn; by rewrite G|].
    rewrite create_version_bucket_eq, decide_False by done.
    assert (d_vers d !! id = None) as ->.
    { destruct (d_vers d !! id) eqn:X; [|done]. assert (is_Some (d_meta d !! id)) as [? Y] by (apply D; by eexists). congruence. }
    cbn. by rewrite lookup_insert.
  - unfold update_meta. destruct (d_meta d !! id) as [o|] eqn:G; [|done].
    destruct (Z.leb_spec (m_utime m) (m_utime o)); cbn; [by exists o|].
    rewrite lookup_insert. eexists; split; [done|]. cbn. lia.
  - destruct (decide (v_hash v = [])) as [|Nh]; [by left|right].
    destruct (decide (v_uid v = [])) as [|Nu]; [by left|right].
    unfold repo_add_version. cbn. unfold add_ver.
    assert (is_Some (d_vers d !! id)) as [b Gb].
    { apply D. destruct (d_meta d !! id); [by eexists|done]. }
    rewrite Gb. destruct (uid_exists d (v_uid v)) eqn:U.
    { cbn. unfold uid_exists in U. apply negb_true_iff, bool_decide_eq_false in U. done. }
    assert (next_seq b = vb_seq b + 1)%N as NS by (apply next_seq_lt; apply I in Gb as [? _]; lia).
    destruct (vb_map b !! vkey id (next_seq b)) as [w|] eqn:Gk.
    { exfalso. destruct (I _ _ Gb) as [_ I2]. apply I2 in Gk as [X ?]. apply vkey_inj in X. lia. }
    destruct (idx_add_some (v_hash v) (vkey id (next_seq b)) (d_hash d) Nh) as [hi ->].
    destruct (idx_add_some (v_uid v) (vkey id (next_seq b)) (d_uid d) Nu) as [ui Hi]. rewrite Hi. cbn.
    pose proof (idx_add_in _ _ _ _ Hi). set_solver.
  - unfold has_version, get_ver in T. unfold remove_ver. destruct (d_vers d !! id) as [b|] eqn:Gb; [|done].
    destruct (vb_map b !! vkey id n) as [v|] eqn:Gk; [|done]. cbn. rewrite lookup_insert.
    eexists; split; [done|]. cbn. destruct (I _ _ Gb) as [_ I2]. apply I2 in Gk as [X ?]. apply vkey_inj in X.
    split; [lia|]. by rewrite lookup_delete.
  - unfold has_version, get_ver in T. unfold update_ver. cbn. destruct (d_vers d !! id) as [b|] eqn:Gb; [|done].
    destruct (vb_map b !! vkey id n) as [o|] eqn:Gk; [|done].
    assert (n <= vb_seq b)%N. { destruct (I _ _ Gb) as [_ I2]. apply I2 in Gk as [X ?]. apply vkey_inj in X. lia. }
    destruct (Z.leb_spec (v_ts v) (v_ts o)); cbn.
    + exists b. split_and!; [done|done|]. intros v0. rewrite Gk. intros [= <-]. done.
    + rewrite lookup_insert. eexists; split; [done|]. cbn. split; [done|]. intros v0.
      rewrite lookup_insert. intros [= <-]. cbn. lia.
  - unfold bkt_create. destruct (b_name b) eqn:Eb; [by left|]. rewrite <-Eb. right.
    destruct (d_bkt d !! b_name b) eqn:G; cbn; [by rewrite G|]. by rewrite lookup_insert.
  - unfold bkt_update. destruct (b_name b) eqn:Eb; [by left|]. rewrite <-Eb in *. right.
    destruct (d_bkt d !! b_name b) as [b0|] eqn:G; [|done].
    destruct (Z.leb_spec (b_utime b) (b_utime b0)); cbn; [by exists b0|].
    rewrite lookup_insert. eexists; split; [done|]. cbn. lia.
Qed.

Definition inv_h (P : str -> Prop) (d : db) : Prop := forall id n v, get_ver id n d = Some v -> P (v_hash v).

Lemma inv_h_step : forall P d c, inv_h P d -> benign c -> (forall id v, c = AddVersion id v -> P (v_hash v)) ->
  inv_h P (step1 d c).
Proof.
  intros P d c I B H id' n' v' G. pose proof (dispatch_effect true c d) as E.
  set (d' := step1 d c) in *. clearbody d'.
  destruct E as [c|i m o Hm0|i m Hn0 Hv|i m Hm0|i v0 b0 hi ui Hb0 Hu0 Hk Hh Hi|i v0 b0 hi ui Hb0 Hu0 Hk Hh Hi|i n0 b0 v0 Hb0 Hk
    |i n0 v0 b0 o Hb0 Hk Ht|i b0 Hb0|c m Hc]; unfold with_meta, with_vers, with_hash, with_uid, with_bkt in G; cbn in G; try done;
    try (by eapply I).
  - rewrite gv_clear in G. destruct (decide (id' = i)); [done|]. by eapply I.
  - rewrite gv_put in G by done. destruct (decide _) as [[-> ->]|N].
    + injection G as <-. cbn. by eapply H.
    + by eapply I.
  - rewrite gv_del in G by done. destruct (decide _) as [X|N]; [done|]. by eapply I.
  - rewrite gv_put in G by done. destruct (decide _) as [[-> ->]|N]; [|by eapply I].
    injection G as <-. cbn. eapply (I i n0). unfold get_ver. by rewrite Hb0.
Qed.

Lemma apply_log_absorbs : forall cs K d done P, inv K d -> (K + N.of_nat (length cs) < 2 ^ 64)%N -> inv_dom d ->
  inv_h P d -> (forall h, adds_hash cs h -> P h) ->
  (forall u, adds_uid cs u \/ adds_uid done u -> ~ P u) ->
  all_on_target d cs -> (forall c, c ∈ done -> absorbed c d) ->
  inv_dom (apply_log d cs) /\ forall c, c ∈ done ++ cs -> absorbed c (apply_log d cs).
Proof.
  induction cs as [|c cs IH]; intros K d done P I HK D IH_ PH PU T A.
  - split; [done|]. intros c. rewrite app_nil_r. apply A.
  - destruct T as [T1 T]. cbn [apply_log fold_left]. fold (apply_log (step1 d c) cs). cbn [length] in HK.
    pose proof (on_target_benign _ _ T1) as B.
    assert (forall id v, c = AddVersion id v -> P (v_hash v)) as HP.
    { intros id v ->. apply PH. exists id, v. split; [by constructor|done]. }
    destruct (IH (K + 1)%N (step1 d c) (done ++ [c]) P) as [R1 R2].
    + apply (inv_effect 0 K d c); [done|apply dispatch_effect| |lia|lia]. intros id v ->. done.
    + lia.
    + eapply inv_dom_effect; [done|apply dispatch_effect].
    + by apply inv_h_step.
    + intros h (id & v & Hin & Hh). apply PH. exists id, v. split; [by constructor|done].
    + intros u Hu. apply PU. destruct Hu as [(id & v & Hin & Hh)|(id & v & Hin & Hh)].
      * left. exists id, v. split; [by constructor|done].
      * apply elem_of_app in Hin as [Hin|Hin]; [right; by exists id, v|].
        apply elem_of_list_singleton in Hin. left. exists id, v. subst. split; [by constructor|done].
    + done.
    + intros c0 Hin. apply elem_of_app in Hin as [Hin| ->%elem_of_list_singleton].
      * apply (absorbed_keep K); [done|lia|by apply A|done|]. intros id v -> id' n' v' G X.
        apply (PU (v_uid v)); [right; by exists id, v|]. rewrite <-X. by eapply IH_.
      * apply (absorbed_after K); [done|lia|done|done].
    + split; [done|]. intros c0 Hin. apply R2. rewrite <-app_assoc. done.
Qed.

Lemma replay : forall cs again, all_on_target db_empty cs -> (N.of_nat (length cs) < 2 ^ 64)%N ->
  (forall u, adds_uid cs u -> ~ adds_hash cs u) -> (forall c, c ∈ again -> c ∈ cs) ->
  apply_log (apply_log db_empty cs) again = apply_log db_empty cs.
Proof.
  intros cs again T L U S.
  destruct (apply_log_absorbs cs 0 db_empty [] (adds_hash cs)) as [D A]; try done.
  - intros id. cbn. split; intros [x X]; done.
  - intros u [H|(id & v & Hin & _)]; [by apply U|]. by apply elem_of_nil in Hin.
  - intros c Hin. by apply elem_of_nil in Hin.
  - set (d := apply_log db_empty cs) in *. clearbody d. induction again as [|c again IH]; [done|].
    cbn [apply_log fold_left]. rewrite absorbed_same; [|done|apply A; apply S; by constructor].
    apply IH. intros c' H. apply S. by constructor.
Qed.
