(** Proofs about unique ids, stale updates and latest versions. *)
From Verif Require Import Str_Model Str_Spec Str_Proofs Meta_Model Meta_Spec Meta_Proofs Meta_History.
From stdpp Require Import gmap sorting.
Local Arguments N.pow : simpl never.
Local Arguments N.modulo : simpl never.
Local Arguments N.add : simpl never.
Local Arguments N.max : simpl never.

(** ** Unique ids *)

Definition inv_uid (d : db) : Prop := forall id n v, get_ver id n d = Some v ->
  vkey id n ∈ idx_get (v_uid v) (d_uid d).

Lemma inv_uid_effect : forall d c d', inv_uid d -> ~ migrates c -> effect d c d' -> inv_uid d'.
Proof.
  intros d c d' I M E id' n' v' H.
  destruct E as [c|i m o Hm0|i m Hn0 Hv|i m Hm0|i v b0 hi ui Hb0 Hu Hk Hh Hi|i v b0 hi ui Hb0 Hu Hk Hh|i n0 b0 v Hb0 Hk
    |i n0 v b0 o Hb0 Hk Ht|i b0 Hb0|c m Hc]; unfold with_meta, with_vers, with_hash, with_uid, with_bkt in H; cbn in H |- *;
    try (by apply I).
  - rewrite gv_clear in H. destruct (decide (id' = i)); [done|]. by apply I.
  - rewrite gv_drop in H. destruct (decide (id' = i)); [done|]. by apply I.
  - rewrite gv_put in H by done. destruct (decide _) as [[-> ->]|N].
    + injection H as <-. cbn. by eapply idx_add_in.
    + eapply idx_add_mono; [done|]. by apply I.
  - destruct M. by exists i, v.
  - rewrite gv_del in H by done. destruct (decide _) as [X|N]; [done|].
    apply idx_remove_other; [|by apply I]. intros X. apply vkey_inj2 in X. done.
  - rewrite gv_put in H by done. destruct (decide _) as [[-> ->]|N]; [|by apply I].
    injection H as <-. cbn. apply I. unfold get_ver. by rewrite Hb0.
  - rewrite gv_clear in H. destruct (decide (id' = i)); [done|]. by apply I.
Qed.

Lemma find_keeps_uid : forall h d, d_uid (fst (find_by_hash h d)) = d_uid d.
Proof. intros. unfold find_by_hash. by destruct (find_loop_keeps h (ksort (elements (idx_get h (d_hash d)))) d) as (_ & _ & -> & _). Qed.

Lemma find_keeps_vers : forall h d, d_vers (fst (find_by_hash h d)) = d_vers d.
Proof. intros. unfold find_by_hash. by destruct (find_loop_keeps h (ksort (elements (idx_get h (d_hash d)))) d) as (-> & _). Qed.

Lemma find_keeps_ver : forall h d id n, get_ver id n (fst (find_by_hash h d)) = get_ver id n d.
Proof. intros. unfold get_ver. by rewrite find_keeps_vers. Qed.

Lemma inv_uid_history : forall B ops, Forall (hop_ok B) ops ->
  Forall (fun o => ~ is_call migrates o) ops -> inv_uid (hrun db_empty ops).
Proof.
  intros B ops O M. rewrite Forall_forall in O, M. apply hrun_ind; [intros id n v G; done|].
  intros d o Hd Hin. apply elem_of_list_In in Hin. apply (hstep_ind inv_uid (fun c => ~ migrates c)).
  - intros. by eapply inv_uid_effect.
  - intros id n v (i & v' & X). done.
  - done.
  - intros h _ id n v. rewrite find_keeps_ver, find_keeps_uid. apply Hd.
  - intros r ->. destruct (O _ Hin) as (batch & c & -> & _). exists batch, c. split; [done|].
    intros X. apply (M _ Hin). by exists batch, c.
Qed.

Lemma uid_exists_in : forall d u k, k ∈ idx_get u (d_uid d) -> uid_exists d u = true.
Proof.
  intros d u k H. unfold uid_exists. rewrite bool_decide_false; [done|]. intros X. rewrite X in H. set_solver.
Qed.

Lemma taken_refused : forall d batch id v, uid_exists d (v_uid v) = true ->
  hstep d (HCmd (command batch (AddVersion id v))) = d /\
  hstep d (HCmd (command batch (MigrateVersion id v))) = d.
Proof.
  intros d batch id v U. cbn. unfold repo_add_version, repo_add_version_raft, add_ver, add_ver_with_sequence.
  rewrite U. destruct (_ && _); [done|]. by destruct (d_vers d !! id).
Qed.

Lemma stored_id_refused : forall B ops id n v batch id' v', Forall (hop_ok B) ops ->
  Forall (fun o => ~ is_call migrates o) ops ->
  get_ver id n (hrun db_empty ops) = Some v -> v_uid v' = v_uid v ->
  hstep (hrun db_empty ops) (HCmd (command batch (AddVersion id' v'))) = hrun db_empty ops /\
  hstep (hrun db_empty ops) (HCmd (command batch (MigrateVersion id' v'))) = hrun db_empty ops.
Proof.
  intros B ops id n v batch id' v' O M G E. set (d := hrun db_empty ops) in *.
  apply taken_refused. rewrite E. eapply uid_exists_in. by apply (inv_uid_history B ops O M).
Qed.

Lemma fresh_effect : forall u d c d', idx_get u (d_uid d) = ∅ -> ~ uses_id u c -> effect d c d' ->
  idx_get u (d_uid d') = ∅.
Proof.
  intros u d c d' F U E.
  destruct E as [c|i m o Hm0|i m Hn0 Hv|i m Hm0|i v b0 hi ui Hb0 Hu Hk Hh Hi|i v b0 hi ui Hb0 Hu Hk Hh Hi|i n0 b0 v Hb0 Hk
    |i n0 v b0 o Hb0 Hk Ht|i b0 Hb0|c m Hc]; cbn; try done.
  - rewrite (idx_add_get _ _ _ _ Hi). destruct (decide (u = v_uid v)) as [->|]; [|done].
    destruct U. left. by exists i, v.
  - rewrite (idx_add_get _ _ _ _ Hi). destruct (decide (u = v_hash v)) as [->|]; [|done].
    destruct U. right. by exists i, v.
  - rewrite idx_remove_get. destruct (decide (u = v_hash v)) as [->|]; [|done]. rewrite F. set_solver.
Qed.

Lemma fresh_history : forall B u ops, Forall (hop_ok B) ops ->
  Forall (fun o => ~ is_call (uses_id u) o) ops -> uid_exists (hrun db_empty ops) u = false.
Proof.
  intros B u ops O M. rewrite Forall_forall in O, M.
  assert (idx_get u (d_uid (hrun db_empty ops)) = ∅) as X.
  { apply (hrun_ind (fun d => idx_get u (d_uid d) = ∅)); [done|].
    intros d o Hd Hin. apply elem_of_list_In in Hin.
    apply (hstep_ind (fun d => idx_get u (d_uid d) = ∅) (fun c => ~ uses_id u c)).
    - intros. by eapply fresh_effect.
    - intros id n v [(i & v' & X & _)|(i & v' & X & _)]; done.
    - done.
    - intros h _. by rewrite find_keeps_uid.
    - intros r ->. destruct (O _ Hin) as (batch & c & -> & _). exists batch, c. split; [done|].
      intros X. apply (M _ Hin). by exists batch, c. }
  unfold uid_exists. rewrite X. done.
Qed.

Lemma idx_add_some : forall h k m, h <> [] -> exists m', idx_add h k m = Some m'.
Proof. intros [|c h] k m H; [done|]. cbn. eauto. Qed.

Lemma add_fresh : forall K d batch id v, inv K d -> (K + 1 < 2 ^ 64)%N -> inv_dom d ->
  d_meta d !! id <> None -> uid_exists d (v_uid v) = false -> v_hash v <> [] -> v_uid v <> [] ->
  exists n, get_ver id n d = None /\
    get_ver id n (hstep d (HCmd (command batch (AddVersion id v)))) = Some (with_seq n v) /\
    snd (dispatch (command batch (AddVersion id v)) d) = RStatus 200 (Some n).
Proof.
  intros K d batch id v I HK D Hm U Hh Hu.
  assert (is_Some (d_vers d !! id)) as [b Hb].
  { apply D. destruct (d_meta d !! id); [by eexists|done]. }
  destruct (I _ _ Hb) as [I1 I2]. assert (next_seq b = vb_seq b + 1)%N as NS by (apply next_seq_lt; lia).
  assert (vb_map b !! vkey id (next_seq b) = None) as Hk.
  { destruct (vb_map b !! vkey id (next_seq b)) as [v0|] eqn:E; [|done]. apply I2 in E as [E ?].
    apply vkey_inj in E. lia. }
  assert (nonempty_ids v = true) as P.
  { unfold nonempty_ids. destruct (v_hash v); [done|]. by destruct (v_uid v). }
  exists (next_seq b). split; [unfold get_ver; by rewrite Hb|].
  cbn [hstep command dispatch rd_dest apply_version rd_type rd_ver rd_name rd_batch].
  unfold repo_add_version, repo_add_version_seq, add_ver_seq. rewrite P, andb_false_r. unfold add_ver.
  rewrite Hb, U, Hk.
  destruct (idx_add_some (v_hash v) (vkey id (next_seq b)) (d_hash d) Hh) as [hi ->].
  destruct (idx_add_some (v_uid v) (vkey id (next_seq b)) (d_uid d) Hu) as [ui ->].
  cbn [fst snd commit fsm_status]. split; [|done].
  unfold with_uid, with_hash, with_vers. cbn. rewrite gv_put by done. by rewrite decide_True.
Qed.

Lemma fresh_id_accepted : forall B ops batch id v, history B ops ->
  Forall (fun o => ~ is_call (uses_id (v_uid v)) o) ops ->
  d_meta (hrun db_empty ops) !! id <> None -> v_hash v <> [] -> v_uid v <> [] ->
  exists n, get_ver id n (hrun db_empty ops) = None /\
    get_ver id n (hstep (hrun db_empty ops) (HCmd (command batch (AddVersion id v)))) = Some (with_seq n v) /\
    snd (dispatch (command batch (AddVersion id v)) (hrun db_empty ops)) = RStatus 200 (Some n).
Proof.
  intros B ops batch id v H F Hm Hh Hu. pose proof (inv_history _ _ H) as I. destruct H as [O L].
  pose proof pow63_64. eapply add_fresh; [exact I|lia| |done| |done|done].
  - by apply (inv_dom_history B).
  - by apply (fresh_history B).
Qed.

(** ** Updates *)

Lemma succeeds_refl : forall v, succeeds v v.
Proof. intros v. split_and!; try done. by left. Qed.

Lemma succeeds_trans : forall a b c, succeeds a b -> succeeds b c -> succeeds a c.
Proof.
  intros a b c (A1 & A2 & A3 & A4) (B1 & B2 & B3 & B4). split_and!; try congruence.
  destruct A4 as [->|A4]; [done|]. right. destruct B4 as [->|B4]; lia.
Qed.

Lemma version_effect : forall d c d' id n v, effect d c d' -> ~ removes_version id n c ->
  get_ver id n d = Some v -> exists v', get_ver id n d' = Some v' /\ succeeds v v'.
Proof.
  intros d c d' id n v E R G.
  destruct E as [c|i m o Hm0|i m Hn0 Hv|i m Hm0|i v0 b0 hi ui Hb0 Hu Hk Hh Hi|i v0 b0 hi ui Hb0 Hu Hk Hh Hi|i n0 b0 v0 Hb0 Hk
    |i n0 v0 b0 o Hb0 Hk Ht|i b0 Hb0|c m Hc]; unfold with_meta, with_vers, with_hash, with_uid, with_bkt; cbn;
    try (exists v; split; [done|apply succeeds_refl]).
  - exists v. split; [|apply succeeds_refl]. rewrite gv_clear. destruct (decide (id = i)) as [->|]; [|done].
    unfold get_ver in G. by rewrite Hv in G.
  - exists v. split; [|apply succeeds_refl]. rewrite gv_drop. destruct (decide (id = i)) as [->|]; [|done].
    destruct R. left. by left.
  - exists v. split; [|apply succeeds_refl]. rewrite gv_put by done. destruct (decide _) as [[-> ->]|]; [|done].
    unfold get_ver in G. rewrite Hb0 in G. congruence.
  - exists v. split; [|apply succeeds_refl]. rewrite gv_put by done. destruct (decide _) as [[-> ->]|]; [|done].
    unfold get_ver in G. rewrite Hb0 in G. congruence.
  - exists v. split; [|apply succeeds_refl]. rewrite gv_del by done. destruct (decide _) as [[-> ->]|]; [|done].
    destruct R. by right.
  - rewrite gv_put by done. destruct (decide _) as [[-> ->]|].
    + unfold get_ver in G. rewrite Hb0, Hk in G. injection G as ->. eexists; split; [done|]. split_and!; try done. by right.
    + exists v. split; [done|apply succeeds_refl].
  - exists v. split; [|apply succeeds_refl]. rewrite gv_clear. destruct (decide (id = i)) as [->|]; [|done].
    destruct R. left. by right.
Qed.

Lemma version_hrun : forall ops d id n v,
  Forall (fun o => forall r, o = HCmd r -> exists batch c, r = command batch c /\ ~ removes_version id n c) ops ->
  get_ver id n d = Some v ->
  exists v', get_ver id n (hrun d ops) = Some v' /\ succeeds v v'.
Proof.
  intros ops d id n v O G. rewrite Forall_forall in O.
  apply (hrun_ind (fun d0 => exists v', get_ver id n d0 = Some v' /\ succeeds v v')).
  - exists v. split; [done|apply succeeds_refl].
  - intros d0 o H0 Hin. apply elem_of_list_In in Hin.
    apply (hstep_ind (fun d1 => exists v', get_ver id n d1 = Some v' /\ succeeds v v') (fun c => ~ removes_version id n c)).
    + intros d1 c d' (v1 & G1 & S1) R E. destruct (version_effect _ _ _ _ _ _ E R G1) as (v2 & G2 & S2).
      exists v2. split; [done|]. by eapply succeeds_trans.
    + intros i m w [[X|X]|X]; done.
    + done.
    + intros h _. by rewrite find_keeps_ver.
    + intros r. by apply O.
Qed.

Lemma meta_effect : forall d c d' id m, effect d c d' -> c <> RemoveMetadata id ->
  d_meta d !! id = Some m -> exists m', d_meta d' !! id = Some m' /\ meta_succeeds m m'.
Proof.
  intros d c d' id m0 E R G. assert (meta_succeeds m0 m0) as Rf by (split_and!; try done; by left).
  destruct E as [c|i m o Hm0|i m Hn0 Hv|i m Hm0|i v0 b0 hi ui Hb0 Hu Hk Hh Hi|i v0 b0 hi ui Hb0 Hu Hk Hh Hi|i n0 b0 v0 Hb0 Hk
    |i n0 v0 b0 o Hb0 Hk Ht|i b0 Hb0|c m Hc]; cbn; try (by exists m0).
  - destruct (decide (i = id)) as [->|N].
    + rewrite lookup_insert. eexists; split; [done|]. replace o with m0 in * by congruence.
      split_and!; try done. by right.
    + rewrite lookup_insert_ne by done. by exists m0.
  - rewrite lookup_insert_ne by congruence. by exists m0.
  - rewrite lookup_delete_ne by congruence. by exists m0.
Qed.

Lemma meta_hrun : forall ops d id m,
  Forall (fun o => forall r, o = HCmd r -> exists batch c, r = command batch c /\ c <> RemoveMetadata id) ops ->
  d_meta d !! id = Some m ->
  exists m', d_meta (hrun d ops) !! id = Some m' /\ meta_succeeds m m'.
Proof.
  intros ops d id m O G. rewrite Forall_forall in O.
  apply (hrun_ind (fun d0 => exists m', d_meta d0 !! id = Some m' /\ meta_succeeds m m')).
  - exists m. split; [done|]. split_and!; try done. by left.
  - intros d0 o H0 Hin. apply elem_of_list_In in Hin.
    apply (hstep_ind (fun d1 => exists m', d_meta d1 !! id = Some m' /\ meta_succeeds m m') (fun c => c <> RemoveMetadata id)).
    + intros d1 c d' (m1 & G1 & (S1 & S2 & S3)) R E. destruct (meta_effect _ _ _ _ _ E R G1) as (m2 & G2 & (T1 & T2 & T3)).
      exists m2. split; [done|]. split_and!; try congruence. destruct S3 as [->|S3]; [done|].
      right. destruct T3 as [->|T3]; lia.
    + done.
    + done.
    + intros h _. unfold find_by_hash.
      by destruct (find_loop_keeps h (ksort (elements (idx_get h (d_hash d0)))) d0) as (_ & -> & _).
    + intros r. by apply O.
Qed.

Lemma stale_version_refused : forall batch d id n v v0, get_ver id n d = Some v0 -> (v_ts v <= v_ts v0)%Z ->
  dispatch (command batch (UpdateVersion id n v)) d = (d, bad).
Proof.
  intros batch d id n v v0 G H. unfold get_ver in G. cbn. unfold update_ver. destruct (d_vers d !! id) as [b|]; [|done].
  cbn. rewrite G. destruct (Z.leb_spec (v_ts v) (v_ts v0)); [done|lia].
Qed.

Lemma stale_meta_refused : forall batch d id m m0, d_meta d !! id = Some m0 -> (m_utime m <= m_utime m0)%Z ->
  dispatch (command batch (UpdateMetadata id m)) d = (d, bad).
Proof.
  intros batch d id m m0 G H. cbn. unfold update_meta. rewrite G.
  destruct (Z.leb_spec (m_utime m) (m_utime m0)); [done|lia].
Qed.

Lemma stale_bucket_refused : forall batch d b b0, b_name b <> [] -> d_bkt d !! b_name b = Some b0 -> (b_utime b <= b_utime b0)%Z ->
  dispatch (command batch (UpdateBucket b)) d = (d, bad).
Proof.
  intros batch d b b0 Hn G H. cbn. unfold bkt_update. destruct (b_name b) eqn:E; [done|].
  replace (d_bkt d !! _) with (Some b0). destruct (Z.leb_spec (b_utime b) (b_utime b0)); [done|lia].
Qed.

(** ** Latest version *)

Lemma str_ltb_app : forall p a b, str_ltb (p ++ a) (p ++ b) = str_ltb a b.
Proof.
  induction p as [|c p IH]; intros a b; [done|]. cbn. rewrite N.ltb_irrefl, N.eqb_refl. apply IH.
Qed.

Lemma vkey_lt : forall id n m, klt (vkey id n) (vkey id m) <-> str_ltb (print_N n) (print_N m) = true.
Proof. intros. unfold klt, vkey. rewrite str_ltb_app. cbn [str_ltb]. by rewrite N.ltb_irrefl, N.eqb_refl. Qed.

Lemma dec_value_app_acc : forall s a, fold_left (fun n c => 10 * n + (N_of_ascii c - 48))%N s a =
  (a * 10 ^ N.of_nat (length s) + dec_value s)%N.
Proof.
  unfold dec_value. induction s as [|c s IH]; intros a; cbn [fold_left length].
  - change (N.of_nat 0) with 0%N. rewrite N.pow_0_r. lia.
  - rewrite IH, (IH (10 * 0 + _)%N). rewrite Nat2N.inj_succ, N.pow_succ_r'. lia.
Qed.

Lemma dec_value_cons : forall c s, dec_value (c :: s) =
  ((N_of_ascii c - 48) * 10 ^ N.of_nat (length s) + dec_value s)%N.
Proof. intros. unfold dec_value at 1. cbn [fold_left]. rewrite dec_value_app_acc. f_equal. Qed.

Lemma dec_value_lt : forall s, Forall dec_digit s -> (dec_value s < 10 ^ N.of_nat (length s))%N.
Proof.
  induction s as [|c s IH]; intros H.
  - cbn. by rewrite N.pow_0_r.
  - apply Forall_cons in H as [Hc H]. specialize (IH H). rewrite dec_value_cons. cbn [length].
    rewrite Nat2N.inj_succ, N.pow_succ_r'. unfold dec_digit in Hc.
    assert (N_of_ascii c - 48 <= 9)%N by lia. set (P := (10 ^ N.of_nat (length s))%N) in *. nia.
Qed.

Lemma str_ltb_dec : forall a b, length a = length b -> Forall dec_digit a -> Forall dec_digit b ->
  (str_ltb a b = true <-> (dec_value a < dec_value b)%N).
Proof.
  induction a as [|x a IH]; intros [|y b] L Ha Hb; try done.
  apply Forall_cons in Ha as [Hx Ha]. apply Forall_cons in Hb as [Hy Hb]. cbn in L. injection L as L.
  rewrite !dec_value_cons, L. pose proof (dec_value_lt b Hb) as Lb.
  pose proof (dec_value_lt a Ha) as La. rewrite L in La.
  set (P := (10 ^ N.of_nat (length b))%N) in *. cbn [str_ltb]. unfold dec_digit in *.
  destruct (N.ltb_spec (N_of_ascii x) (N_of_ascii y)).
  - split; [|done]. intros _. nia.
  - destruct (N.eqb_spec (N_of_ascii x) (N_of_ascii y)) as [E|NE].
    + rewrite (IH b L Ha Hb). rewrite E. lia.
    + split; [done|]. nia.
Qed.

Lemma print_N_dec : forall n, Forall dec_digit (print_N n) /\ dec_value (print_N n) = n.
Proof.
  intros n. pose proof (parse_print_N n) as H. apply parse_digits_iff in H as (_ & ? & ?). done.
Qed.

(** The text of [n] has [k + 1] digits when 10^k <= n < 10^(k+1). *)
Lemma unorm_D0 : forall u, Decimal.unorm u <> Decimal.Nil /\
  (forall w, Decimal.unorm u = Decimal.D0 w -> w = Decimal.Nil).
Proof.
  induction u; cbn; try (split; [done|intros w X; discriminate]); [|done].
  split; [done|]. intros w X. by injection X.
Qed.

Lemma print_N_head : forall n c s, print_N n = c :: s -> s <> [] -> c <> "0"%char.
Proof.
  intros n c s E Hs ->. unfold print_N in E.
  assert (Decimal.unorm (N.to_uint n) = N.to_uint n) as U.
  { rewrite <-DecimalN.Unsigned.to_of. by rewrite DecimalN.Unsigned.of_to. }
  destruct (N.to_uint n) eqn:T; cbn in E; try discriminate. injection E as E.
  destruct (unorm_D0 (Decimal.D0 u)) as [_ X]. rewrite U in X. specialize (X u eq_refl). subst u. cbn in E. congruence.
Qed.

Lemma print_N_length : forall n k, (10 ^ k <= n < 10 ^ (k + 1))%N -> N.of_nat (length (print_N n)) = (k + 1)%N.
Proof.
  intros n k [H1 H2]. destruct (print_N_dec n) as [D V]. pose proof (dec_value_lt _ D) as L. rewrite V in L.
  assert (k < N.of_nat (length (print_N n)))%N as Lo.
  { apply (N.pow_lt_mono_r_iff 10); [lia|]. lia. }
  destruct (N.eq_dec (N.of_nat (length (print_N n))) (k + 1)) as [E|N]; [done|exfalso].
  destruct (print_N n) as [|c s] eqn:E; [cbn in Lo; lia|].
  assert (s <> []) as Hs. { intros ->. cbn [length] in N, Lo. lia. }
  pose proof (print_N_head _ _ _ E Hs) as Hc. rewrite dec_value_cons in V.
  apply Forall_cons in D as [Dc _]. unfold dec_digit in Dc.
  assert (N_of_ascii c <> 48%N) as Hc'.
  { intros X. apply Hc. apply N_of_ascii_inj. exact X. }
  cbn [length] in N, Lo. rewrite Nat2N.inj_succ in N, Lo.
  assert (10 ^ (k + 1) <= 10 ^ N.of_nat (length s))%N by (apply N.pow_le_mono_r; lia).
  set (P := (10 ^ N.of_nat (length s))%N) in *. nia.
Qed.

Lemma print_N_order : forall k n m, (10 ^ k <= n < 10 ^ (k + 1))%N -> (10 ^ k <= m < 10 ^ (k + 1))%N ->
  (str_ltb (print_N n) (print_N m) = true <-> (n < m)%N).
Proof.
  intros k n m Hn Hm. destruct (print_N_dec n) as [Dn Vn]. destruct (print_N_dec m) as [Dm Vm].
  rewrite str_ltb_dec; [by rewrite Vn, Vm| |done|done].
  apply Nat2N.inj. by rewrite (print_N_length n k), (print_N_length m k).
Qed.

(** The versions of an object in key order. *)
Lemma vkeys_in : forall K d id b k, inv K d -> d_vers d !! id = Some b ->
  k ∈ keys (vb_map b) <-> exists n, k = vkey id n /\ has_version d id n.
Proof.
  intros K d id b k I Hb. rewrite keys_in. unfold has_version, get_ver. rewrite Hb. split.
  - intros [v Hv]. destruct (I _ _ Hb) as [_ I2]. pose proof Hv as Hv'. apply I2 in Hv as [-> _].
    exists (v_seq v). split; [done|]. by rewrite Hv'.
  - intros (n & -> & H). by destruct (vb_map b !! vkey id n); [eexists|].
Qed.

Lemma has_version_le : forall K d id n, inv K d -> has_version d id n -> (n <= K)%N.
Proof.
  intros K d id n I H. unfold has_version in H. destruct (get_ver id n d) as [v|] eqn:G; [|done].
  destruct (inv_number _ _ _ _ _ I G). lia.
Qed.

(** The number reported as last is the one with the greatest decimal text, as first the
    one with the smallest. *)
Lemma last_number_text : forall K d id, inv K d -> (K < 2 ^ 64)%N -> (exists n, has_version d id n) ->
  has_version d id (last_version_number id d) /\
  forall n, has_version d id n -> n = last_version_number id d \/
    str_ltb (print_N n) (print_N (last_version_number id d)) = true.
Proof.
  intros K d id I HK [n0 H0]. unfold last_version_number.
  destruct (d_vers d !! id) as [b|] eqn:Hb; [|unfold has_version, get_ver in H0; by rewrite Hb in H0].
  assert (forall k, k ∈ keys (vb_map b) <-> exists n, k = vkey id n /\ has_version d id n) as Hin by (intros; by eapply vkeys_in).
  destruct (last (keys (vb_map b))) as [k|] eqn:L.
  - destruct (sorted_last _ _ (keys_sorted (vb_map b)) L) as [Hk Hmax].
    apply Hin in Hk as (n & -> & Hn). rewrite cut_last_vkey.
    assert (n <= K)%N by (by eapply has_version_le).
    rewrite to_uint64_print by lia. split; [done|]. intros m Hm.
    destruct (Hmax (vkey id m)) as [E|E]; [apply Hin; by exists m| |].
    + left. by apply vkey_inj in E.
    + right. by apply vkey_lt in E.
  - apply last_none in L. exfalso. assert (vkey id n0 ∈ keys (vb_map b)) as X by (apply Hin; by exists n0).
    rewrite L in X. by apply elem_of_nil in X.
Qed.

Lemma first_number_text : forall K d id, inv K d -> (K < 2 ^ 64)%N -> (exists n, has_version d id n) ->
  has_version d id (first_version_number id d) /\
  forall n, has_version d id n -> n = first_version_number id d \/
    str_ltb (print_N (first_version_number id d)) (print_N n) = true.
Proof.
  intros K d id I HK [n0 H0]. unfold first_version_number.
  destruct (d_vers d !! id) as [b|] eqn:Hb; [|unfold has_version, get_ver in H0; by rewrite Hb in H0].
  assert (forall k, k ∈ keys (vb_map b) <-> exists n, k = vkey id n /\ has_version d id n) as Hin by (intros; by eapply vkeys_in).
  destruct (head (keys (vb_map b))) as [k|] eqn:L.
  - destruct (sorted_head _ _ (keys_sorted (vb_map b)) L) as [Hk Hmax].
    apply Hin in Hk as (n & -> & Hn). rewrite cut_last_vkey.
    assert (n <= K)%N by (by eapply has_version_le).
    rewrite to_uint64_print by lia. split; [done|]. intros m Hm.
    destruct (Hmax (vkey id m)) as [E|E]; [apply Hin; by exists m| |].
    + left. by apply vkey_inj in E.
    + right. by apply vkey_lt in E.
  - destruct (keys (vb_map b)) eqn:X0; [|done]. exfalso.
    assert (vkey id n0 ∈ []) as X by (apply Hin; by exists n0). by apply elem_of_nil in X.
Qed.

(** What [GetExtra] reports agrees with the two numbers. *)
Lemma extra_numbers : forall K d (id : str), inv K d -> (K < 2 ^ 63)%N -> id <> ([] : str) -> (exists n, has_version d id n) ->
  exists total, get_extra id d = Some (total, Z.of_N (first_version_number id d), Z.of_N (last_version_number id d)).
Proof.
  intros K d id I HK Hid [n0 H0]. unfold get_extra, last_version_number, first_version_number.
  destruct (d_vers d !! id) as [b|] eqn:Hb; [|unfold has_version, get_ver in H0; by rewrite Hb in H0].
  assert (forall k, k ∈ keys (vb_map b) <-> exists n, k = vkey id n /\ has_version d id n) as Hin by (intros; by eapply vkeys_in).
  assert (vkey id n0 ∈ keys (vb_map b)) as X by (apply Hin; by exists n0).
  exists (size (vb_map b)).
  assert (forall k, k ∈ keys (vb_map b) -> extra_number (Some k) =
    Z.of_N (match cut_last "."%char k with None => 0%N | Some (_, t) => to_uint64 t end)) as Hk.
  { intros k Hk. apply Hin in Hk as (n & -> & Hn). cbn. rewrite cut_last_vkey. destruct id as [|c id]; [done|].
    assert (n <= K)%N by (by eapply has_version_le).
    pose proof pow63_64. rewrite to_int_print, to_uint64_print by lia. done. }
  destruct (last (keys (vb_map b))) as [k|] eqn:L; [|apply last_none in L; rewrite L in X; by apply elem_of_nil in X].
  destruct (head (keys (vb_map b))) as [k'|] eqn:L';
    [|destruct (keys (vb_map b)); [by apply elem_of_nil in X|done]].
  rewrite !Hk; [done|..].
  - by destruct (sorted_last _ _ (keys_sorted (vb_map b)) L).
  - by destruct (sorted_head _ _ (keys_sorted (vb_map b)) L').
Qed.

Lemma latest_number : forall B ops id k, history B ops ->
  let d := hrun db_empty ops in
  (exists n, has_version d id n) ->
  (forall n, has_version d id n -> (10 ^ k <= n < 10 ^ (k + 1))%N) ->
  (forall n, has_version d id n -> (first_version_number id d <= n <= last_version_number id d)%N) /\
  has_version d id (first_version_number id d) /\ has_version d id (last_version_number id d) /\
  service_get_version id 0 d = get_ver id (last_version_number id d) d.
Proof.
  intros B ops id k H d He Hr. pose proof (inv_history _ _ H) as I. fold d in I. destruct H as [_ L].
  pose proof pow63_64.
  destruct (last_number_text _ d id I) as [L1 L2]; [lia|done|].
  destruct (first_number_text _ d id I) as [F1 F2]; [lia|done|].
  split_and!; try done. intros n Hn. split.
  - destruct (F2 n Hn) as [->|E]; [lia|]. apply (print_N_order k) in E; [lia|by apply Hr|by apply Hr].
  - destruct (L2 n Hn) as [->|E]; [lia|]. apply (print_N_order k) in E; [lia|by apply Hr|by apply Hr].
Qed.

Lemma text_order : forall B ops id, history B ops -> id <> ([] : str) ->
  let d := hrun db_empty ops in
  (exists n, has_version d id n) ->
  has_version d id (last_version_number id d) /\ has_version d id (first_version_number id d) /\
  (forall n, has_version d id n ->
     (n = last_version_number id d \/ str_ltb (print_N n) (print_N (last_version_number id d)) = true) /\
     (n = first_version_number id d \/ str_ltb (print_N (first_version_number id d)) (print_N n) = true)) /\
  exists total, get_extra id d = Some (total, Z.of_N (first_version_number id d), Z.of_N (last_version_number id d)).
Proof.
  intros B ops id H Hid d He. pose proof (inv_history _ _ H) as I. fold d in I. destruct H as [_ L].
  pose proof pow63_64.
  destruct (last_number_text _ d id I) as [L1 L2]; [lia|done|].
  destruct (first_number_text _ d id I) as [F1 F2]; [lia|done|].
  split_and!; [done|done| |by eapply extra_numbers]. intros n Hn. split; [by apply L2|by apply F2].
Qed.

(** To check a bound on the numbers of a concrete history. *)
Lemma small_numbers : forall B ops id n, history B ops -> has_version (hrun db_empty ops) id n ->
  n ∈ match d_vers (hrun db_empty ops) !! id with
      | Some b => map (fun kv => v_seq (snd kv)) (map_to_list (vb_map b))
      | None => []
      end.
Proof.
  intros B ops id n H Hn. unfold has_version in Hn.
  destruct (get_ver id n (hrun db_empty ops)) as [v|] eqn:G; [|done].
  destruct (inv_number _ _ _ _ _ (inv_history _ _ H) G) as [<- _].
  unfold get_ver in G. destruct (d_vers (hrun db_empty ops) !! id) as [b|]; [|done].
  apply elem_of_list_fmap. eexists (_, v). split; [done|by apply elem_of_map_to_list].
Qed.
