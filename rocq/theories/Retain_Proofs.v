From Verif Require Import Str_Model Str_Proofs Str_Spec Meta_Model Meta_Spec Meta_Proofs Meta_History Meta_Ids Retain_Model.
From stdpp Require Import gmap sorting.

Definition cond (versioning : bool) (remains : Z) (total : nat) : bool :=
  ((0 <? Z.of_nat total)%Z && negb versioning) || (remains <=? Z.of_nat total)%Z.

Definition wf_ver (v : version) : Prop := v_hash v <> [] /\ v_uid v <> [].

Lemma wf_present : forall v, wf_ver v -> ids_present v = true.
Proof. intros v [H1 H2]. unfold ids_present. by rewrite !bool_decide_true. Qed.

Lemma sim_hist : forall cs d s, sim d s -> exists s', sim (run_calls d cs) s'.
Proof.
  induction cs as [|c cs IH]; intros d s S; [by exists s|].
  unfold run_calls in *. cbn. destruct (call_sim true c d s S) as [_ S']. by eapply IH.
Qed.

(** A version added to an existing object. *)
Lemma add_sim : forall d s id o v, sim d s -> s_objs s !! id = Some o -> wf_ver v ->
  uid_exists d (v_uid v) = false -> (o_next o + 1 < 2 ^ 64)%N -> o_vers o !! (o_next o + 1)%N = None ->
  let n := (o_next o + 1)%N in
  sim (run_calls d [AddVersion id v])
      (put_obj id (mk_obj (o_meta o) n (<[ n := with_seq n v ]> (o_vers o))) s).
Proof.
  intros d s id o v S Ho Hw Hu Hn Hk n. unfold run_calls. cbn [map hrun fold_left hstep].
  destruct (call_sim true (AddVersion id v) d s S) as [_ S']. revert S'.
  cbn [dup_of spec_call]. rewrite Ho, Hu. cbn [negb andb].
  rewrite N.mod_small by done. rewrite Hk, (wf_present _ Hw). done.
Qed.

Lemma remove_sim : forall d s id o n, sim d s -> s_objs s !! id = Some o -> is_Some (o_vers o !! n) ->
  sim (run_calls d [RemoveVersion id n]) (put_obj id (mk_obj (o_meta o) (o_next o) (delete n (o_vers o))) s).
Proof.
  intros d s id o n S Ho [v Hv]. unfold run_calls. cbn [map hrun fold_left hstep].
  destruct (call_sim true (RemoveVersion id n) d s S) as [_ S']. revert S'.
  cbn [dup_of spec_call]. by rewrite Ho, Hv.
Qed.

Lemma run_calls_app : forall d a b, run_calls d (a ++ b) = run_calls (run_calls d a) b.
Proof. intros d a b. unfold run_calls. rewrite map_app. apply hrun_app. Qed.

Lemma sim_has : forall d s id o n, sim d s -> s_objs s !! id = Some o -> has_version d id n <-> is_Some (o_vers o !! n).
Proof.
  intros d s id o n S Ho. unfold has_version. rewrite (sim_get_ver d s id n S), Ho. cbn.
  split; [by apply not_eq_None_Some|by intros [v ->]].
Qed.

(** One upload onto an existing object with at least one version. *)
Lemma put_sim : forall K d s id o v vn rem m, sim d s -> inv K d -> (K + 1 < 2 ^ 63)%N -> id <> ([] : str) ->
  s_objs s !! id = Some o -> (exists n, is_Some (o_vers o !! n)) -> wf_ver v -> uid_exists d (v_uid v) = false ->
  let n := (o_next o + 1)%N in
  let f := first_version_number id d in
  let vers := <[ n := with_seq n v ]> (o_vers o) in
  is_Some (o_vers o !! f) /\ o_vers o !! n = None /\
  (forall k, is_Some (o_vers o !! k) -> (1 <= k <= o_next o)%N /\ (k = f \/ str_ltb (print_N f) (print_N k) = true)) /\
  (exists l, get_extra id d = Some (size (o_vers o), Z.of_N f, l)) /\
  sim (put vn rem id m d v)
      (put_obj id (mk_obj (o_meta o) n (if cond vn rem (size (o_vers o)) then delete f vers else vers)) s).
Proof.
  intros K d s id o v vn rem m S I HK Hid Ho [n0 Hn0] Hw Hu n f vers. pose proof pow63_64 as P64.
  assert (He : exists n, has_version d id n) by (exists n0; by apply (sim_has d s id o)).
  destruct (first_number_text K d id I) as [F1 F2]; [lia|done|]. fold f in F1, F2.
  destruct (extra_numbers K d id I) as [total E]; [lia|done|done|]. fold f in E.
  pose proof S as (M & V & _).
  assert (Hb : d_vers d !! id = Some (vb_of id o)) by (rewrite V, Ho; done).
  assert (total = size (o_vers o)) as ->.
  { unfold get_extra in E. rewrite Hb in E. cbn in E. injection E as <- _. apply size_kmap_vkey. }
  destruct (I _ _ Hb) as [I1 I2]. cbn in I1.
  assert (Hk : forall k, is_Some (o_vers o !! k) -> (1 <= k <= o_next o)%N).
  { intros k [w Hw']. assert (vb_map (vb_of id o) !! vkey id k = Some w) as X by (cbn; by rewrite kmap_get).
    apply I2 in X as [X ?]. apply vkey_inj in X. cbn in *. lia. }
  assert (Hnew : o_vers o !! n = None).
  { destruct (o_vers o !! n) eqn:X; [|done]. assert (n <= o_next o)%N by (apply Hk; by eexists). unfold n in *. lia. }
  assert (Hf : is_Some (o_vers o !! f)) by (by apply (sim_has d s id o)).
  split_and!; [done|done| |by eexists|].
  { intros k Hk'. split; [by apply Hk|]. destruct (F2 k) as [->|?]; [by apply (sim_has d s id o)|by left|by right]. }
  unfold put, put_read. rewrite E. unfold put_calls.
  assert (n = n) as _ by done.
  pose proof (add_sim d s id o v S Ho Hw Hu ltac:(lia) Hnew) as S1. cbv zeta in S1. fold n in S1. fold vers in S1.
  assert (0 < f)%N by (destruct (Hk f Hf); lia).
  destruct (Z.ltb_spec 0 (Z.of_N f)) as [_|]; [|lia]. rewrite N2Z.id.
  fold (cond vn rem (size (o_vers o))).
  destruct (cond vn rem (size (o_vers o))); [|exact S1].
  change [AddVersion id v; RemoveVersion id f] with ([AddVersion id v] ++ [RemoveVersion id f]).
  rewrite run_calls_app.
  pose proof (remove_sim _ _ id (mk_obj (o_meta o) n vers) f S1) as S2. cbn [put_obj s_objs] in S2.
  rewrite lookup_insert in S2. specialize (S2 eq_refl). cbn [o_vers o_meta o_next] in S2.
  unfold put_obj in *. cbn [s_objs s_bkts] in S2. rewrite insert_insert in S2. apply S2.
  unfold vers. destruct (decide (f = n)) as [->|]; [rewrite lookup_insert; by eexists|by rewrite lookup_insert_ne].
Qed.

(** The first upload. *)
Lemma put_new : forall d s id v vn rem m, sim d s -> s_objs s !! id = None -> id <> ([] : str) -> wf_ver v ->
  uid_exists d (v_uid v) = false ->
  sim (put vn rem id m d v) (put_obj id (mk_obj m 1 {[ 1%N := with_seq 1 v ]}) s).
Proof.
  intros d s id v vn rem m S Ho Hid Hw Hu. unfold put, put_read, get_extra.
  pose proof S as (M & V & _). assert (d_vers d !! id = None) as -> by (rewrite V, Ho; done).
  unfold put_calls. change [AddMetadata id m; AddVersion id v] with ([AddMetadata id m] ++ [AddVersion id v]).
  rewrite run_calls_app.
  destruct (call_sim true (AddMetadata id m) d s S) as [_ S1]. revert S1. cbn [dup_of spec_call].
  rewrite Ho, bool_decide_false by done. cbn [fst]. intros S1.
  change (fst (dispatch (command true (AddMetadata id m)) d)) with (run_calls d [AddMetadata id m]) in S1.
  pose proof (add_sim _ _ id (mk_obj m 0 ∅) v S1) as S2. unfold put_obj in S2. cbn [s_objs s_bkts] in S2. rewrite lookup_insert in S2.
  specialize (S2 eq_refl Hw). cbn [o_next o_vers o_meta] in S2. rewrite insert_insert in S2.
  unfold put_obj. rewrite <- insert_empty. apply S2; [|done|done].
  pose proof (dispatch_effect true (AddMetadata id m) d) as E.
  assert (X : d_uid (run_calls d [AddMetadata id m]) = d_uid d).
  { unfold run_calls. cbn [map hrun fold_left hstep]. revert E. generalize (fst (dispatch (command true (AddMetadata id m)) d)).
    intros d' E. by inversion E. }
  unfold uid_exists in *. by rewrite X.
Qed.

(** ** The history behind a series of uploads *)

Lemma put_is_run : forall vn rem id m d v, exists cs, (length cs <= 2)%nat /\
  Forall (fun c => match c with MigrateVersion _ _ => False | AddVersion _ w => w = v | _ => True end) cs /\
  put vn rem id m d v = run_calls d cs.
Proof.
  intros vn rem id m d v. exists (put_calls vn rem id m v (put_read id d)). split_and!; [| |done];
    unfold put_calls; destruct (put_read id d) as [[[t f] l]|]; cbn; try lia.
  - destruct (_ || _); [destruct (0 <? f)%Z|]; cbn; lia.
  - constructor; [done|]. destruct (_ || _); [destruct (0 <? f)%Z|]; repeat constructor.
  - repeat constructor.
Qed.

Lemma uploads_run : forall vn rem id m vs d, exists cs, (length cs <= 2 * length vs)%nat /\
  Forall (fun c => match c with MigrateVersion _ _ => False | AddVersion _ w => w ∈ vs | _ => True end) cs /\
  uploads vn rem id m vs d = run_calls d cs.
Proof.
  intros vn rem id m vs. induction vs as [|v vs IH] using rev_ind; intros d.
  - exists []. cbn. split_and!; [lia|constructor|done].
  - destruct (IH d) as (cs & L & F & E). unfold uploads in *. rewrite fold_left_app. cbn [fold_left]. rewrite E.
    destruct (put_is_run vn rem id m (run_calls d cs) v) as (cs2 & L2 & F2 & E2). rewrite E2.
    exists (cs ++ cs2). rewrite !app_length. cbn [length]. split_and!; [lia| |by rewrite run_calls_app].
    apply Forall_app. split.
    + eapply Forall_impl; [exact F|]. intros [] Hx; try done. apply elem_of_app. by left.
    + eapply Forall_impl; [exact F2|]. intros [] Hx; try done. subst. apply elem_of_app. right. by apply elem_of_list_singleton.
Qed.

Lemma run_history : forall (cs : list call) k, (length cs <= 2 * k)%nat -> (2 * N.of_nat k + 2 < 2 ^ 63)%N ->
  Forall (fun c => match c with MigrateVersion _ _ => False | _ => True end) cs ->
  history 0 (map (fun c => HCmd (command true c)) cs).
Proof.
  intros cs k L H F. split; [|rewrite map_length; lia]. apply Forall_map. eapply Forall_impl; [exact F|].
  intros c Hc. exists true, c. split; [done|]. by destruct c.
Qed.

Section Series.
Context (vn : bool) (rem : Z) (id : str) (m : metadata) (Hid : id <> ([] : str)).

(** The state after a series of uploads is fit for one more with a new unique id. *)
Lemma uploads_state : forall vs v, Forall wf_ver (vs ++ [v]) -> NoDup (v_uid <$> (vs ++ [v])) ->
  (2 * N.of_nat (length vs) + 2 < 2 ^ 63)%N ->
  let d := uploads vn rem id m vs db_empty in
  inv (2 * N.of_nat (length vs)) d /\ uid_exists d (v_uid v) = false.
Proof.
  intros vs v Hw Hn Hl d. unfold d. destruct (uploads_run vn rem id m vs db_empty) as (cs & L & F & E). rewrite E.
  assert (H : history 0 (map (fun c => HCmd (command true c)) cs)).
  { apply (run_history cs (length vs)); [done|done|]. eapply Forall_impl; [exact F|]. by intros []. }
  split.
  - eapply inv_weaken; [|by apply inv_history]. rewrite map_length. lia.
  - apply (fresh_history 0); [apply H|]. apply Forall_map. rewrite Forall_forall in F |- *. intros c Hc.
    intros (b & y & Ey & Hy). injection Ey as Ey. assert (c = y) as -> by (destruct c, y; cbn in Ey; congruence).
    specialize (F y Hc). destruct Hy as [(i & w & -> & Hv)|(i & w & -> & Hv)]; [|done].
    rewrite fmap_app in Hn. apply NoDup_app in Hn as (_ & Hn & _). apply (Hn (v_uid w)).
    + by apply elem_of_list_fmap_1.
    + rewrite Hv. by apply elem_of_list_singleton.
Qed.

(** The state after [k] uploads keeps exactly the numbers in [lo+1 .. k]. *)
Definition window (d : db) (lo k : N) : Prop := exists s o, sim d s /\ s_objs s !! id = Some o /\ o_next o = k /\
  (lo < k)%N /\ size (o_vers o) = N.to_nat (k - lo) /\ forall n, is_Some (o_vers o !! n) <-> (lo < n <= k)%N.

Lemma window_first : forall K d lo k, inv K d -> (K < 2 ^ 63)%N -> window d lo k ->
  (k <= 9)%N \/ k = (lo + 1)%N -> first_version_number id d = (lo + 1)%N.
Proof.
  intros K d lo k I HK (s & o & S & Ho & Hk & Hlo & Hs & Hw) Hc. pose proof pow63_64.
  assert (He : has_version d id (lo + 1)) by (apply (sim_has d s id o); [done|done|]; apply Hw; lia).
  destruct (first_number_text K d id I) as [F1 F2]; [lia|by eexists|].
  apply (sim_has d s id o) in F1; [|done|done]. apply Hw in F1.
  destruct Hc as [Hc| ->]; [|lia].
  destruct (F2 _ He) as [E|E]; [done|].
  apply (print_N_order 0) in E; cbn; lia.
Qed.

Lemma window_step : forall K d lo k v, inv K d -> (K + 1 < 2 ^ 63)%N -> window d lo k -> wf_ver v ->
  uid_exists d (v_uid v) = false -> (k <= 9)%N \/ k = (lo + 1)%N ->
  window (put vn rem id m d v) (if cond vn rem (N.to_nat (k - lo)) then lo + 1 else lo)%N (k + 1)%N.
Proof.
  intros K d lo k v I HK W Hw Hu Hc.
  assert (Ef : first_version_number id d = (lo + 1)%N) by (eapply window_first; [exact I|lia|exact W|exact Hc]).
  destruct W as (s & o & S & Ho & Hk & Hlo & Hs & Hwin).
  destruct (put_sim K d s id o v vn rem m S I HK Hid Ho) as (F1 & Hnew & _ & _ & S'); [|done|done|].
  { exists k. apply Hwin. lia. }
  rewrite Ef in *. rewrite Hs, Hk in *.
  eexists _, _. split; [exact S'|]. cbn [put_obj s_objs]. split; [apply lookup_insert|]. cbn [o_next o_vers].
  split; [done|].
  destruct (cond vn rem (N.to_nat (k - lo))).
  - split; [lia|]. split.
    + rewrite map_size_delete_Some by (rewrite lookup_insert_ne by lia; done).
      rewrite map_size_insert_None by done. rewrite Hs. lia.
    + intros n. destruct (decide (n = (lo + 1)%N)) as [->|Hn1].
      * rewrite lookup_delete. split; [intros [? X]; done|lia].
      * rewrite lookup_delete_ne by done. destruct (decide (n = (k + 1)%N)) as [->|Hn2].
        -- rewrite lookup_insert. split; [lia|by eexists].
        -- rewrite lookup_insert_ne by done. rewrite Hwin. lia.
  - split; [lia|]. split.
    + rewrite map_size_insert_None by done. rewrite Hs. lia.
    + intros n. destruct (decide (n = (k + 1)%N)) as [->|Hn2].
      * rewrite lookup_insert. split; [lia|by eexists].
      * rewrite lookup_insert_ne by done. rewrite Hwin. lia.
Qed.

Lemma window_one : forall v, wf_ver v -> window (put vn rem id m db_empty v) 0 1.
Proof.
  intros v Hw. pose proof (put_new db_empty store_empty id v vn rem m sim_empty) as S.
  specialize (S ltac:(done) Hid Hw ltac:(done)).
  eexists _, _. split; [exact S|]. cbn [put_obj s_objs]. split; [apply lookup_insert|]. cbn [o_next o_vers].
  split; [done|]. split; [lia|]. split; [by rewrite map_size_singleton|].
  intros n. destruct (decide (n = 1%N)) as [->|Hn].
  - rewrite lookup_singleton. split; [lia|by eexists].
  - rewrite lookup_singleton_ne by done. split; [intros [? X]; done|lia].
Qed.

(** Keeping one. *)
Lemma keep_one : forall vs, vn = false \/ (rem <= 1)%Z -> vs <> [] -> Forall wf_ver vs -> NoDup (v_uid <$> vs) ->
  (2 * N.of_nat (length vs) + 2 < 2 ^ 63)%N ->
  window (uploads vn rem id m vs db_empty) (N.of_nat (length vs) - 1) (N.of_nat (length vs)).
Proof.
  intros vs Hp. induction vs as [|v vs IH] using rev_ind; intros Hne Hw Hn Hl; [done|].
  destruct (decide (vs = [])) as [->|Hvs].
  - cbn. apply window_one. by apply Forall_cons in Hw as [Hw _].
  - rewrite app_length in *. cbn [length] in *.
    destruct (uploads_state vs v Hw Hn) as [I Hu]; [lia|].
    pose proof Hw as Hw'. apply Forall_app in Hw' as [Hw1 Hw2]. apply Forall_cons in Hw2 as [Hw2 _].
    rewrite fmap_app in Hn. apply NoDup_app in Hn as (Hn1 & _ & _).
    assert (0 < length vs)%nat by (destruct vs; [done|cbn; lia]).
    pose proof (window_step _ _ _ _ v I ltac:(lia) (IH Hvs Hw1 Hn1 ltac:(lia)) Hw2 Hu ltac:(lia)) as W.
    unfold uploads in *. rewrite fold_left_app. cbn [fold_left].
    assert (cond vn rem (N.to_nat (N.of_nat (length vs) - (N.of_nat (length vs) - 1))) = true) as Ec.
    { replace (N.to_nat _) with 1%nat by lia. unfold cond. destruct Hp as [->|Hp]; [done|].
      destruct (Z.leb_spec rem (Z.of_nat 1)); [by rewrite orb_true_r|lia]. }
    rewrite Ec in W. replace (N.of_nat (length vs + 1) - 1)%N with (N.of_nat (length vs) - 1 + 1)%N by lia.
    replace (N.of_nat (length vs + 1)) with (N.of_nat (length vs) + 1)%N by lia. exact W.
Qed.

(** Keeping [rem], while the numbers have one digit. *)
Lemma keep_window : forall vs, vn = true -> (1 <= rem)%Z -> vs <> [] -> (length vs <= 10)%nat ->
  Forall wf_ver vs -> NoDup (v_uid <$> vs) ->
  window (uploads vn rem id m vs db_empty) (N.of_nat (length vs) - Z.to_N rem) (N.of_nat (length vs)).
Proof.
  intros vs Hv Hr. induction vs as [|v vs IH] using rev_ind; intros Hne Hl Hw Hn; [done|].
  destruct (decide (vs = [])) as [->|Hvs].
  - cbn [app length uploads fold_left]. replace (N.of_nat 1 - Z.to_N rem)%N with 0%N by lia. apply window_one. by apply Forall_cons in Hw as [Hw _].
  - rewrite app_length in *. cbn [length] in *.
    assert (P : (2 ^ 63 > 100)%N) by done.
    destruct (uploads_state vs v Hw Hn) as [I Hu]; [lia|].
    pose proof Hw as Hw'. apply Forall_app in Hw' as [Hw1 Hw2]. apply Forall_cons in Hw2 as [Hw2 _].
    rewrite fmap_app in Hn. apply NoDup_app in Hn as (Hn1 & _ & _).
    assert (0 < length vs)%nat by (destruct vs; [done|cbn; lia]).
    pose proof (window_step _ _ _ _ v I ltac:(lia) (IH Hvs ltac:(lia) Hw1 Hn1) Hw2 Hu ltac:(lia)) as W.
    unfold uploads in *. rewrite fold_left_app. cbn [fold_left].
    replace (N.of_nat (length vs + 1)) with (N.of_nat (length vs) + 1)%N by lia.
    revert W. unfold cond. rewrite Hv. cbn [negb]. rewrite andb_false_r. cbn [orb].
    destruct (Z.leb_spec rem (Z.of_nat (N.to_nat (N.of_nat (length vs) - (N.of_nat (length vs) - Z.to_N rem))))) as [Hle|Hgt]; intros W.
    + replace (N.of_nat (length vs) + 1 - Z.to_N rem)%N with (N.of_nat (length vs) - Z.to_N rem + 1)%N by lia. exact W.
    + replace (N.of_nat (length vs) + 1 - Z.to_N rem)%N with (N.of_nat (length vs) - Z.to_N rem)%N by lia. exact W.
Qed.

Lemma window_has : forall d lo k n, window d lo k -> has_version d id n <-> (lo < n <= k)%N.
Proof. intros d lo k n (s & o & S & Ho & _ & _ & _ & H). by rewrite (sim_has d s id o). Qed.
End Series.

(** One more upload after any history of calls. *)
Lemma put_exact : forall B cs id v vn rem m,
  history B (map (fun c => HCmd (command true c)) cs) -> (B + N.of_nat (length cs) + 1 < 2 ^ 63)%N ->
  id <> ([] : str) -> wf_ver v -> Forall (fun c => ~ uses_id (v_uid v) c) cs ->
  let d := run_calls db_empty cs in
  (exists n, has_version d id n) ->
  exists n total, (forall k, has_version d id k -> (k < n)%N) /\
    (exists l, put_read id d = Some (total, Z.of_N (first_version_number id d), l)) /\
    forall k, has_version (put vn rem id m d v) id k <->
      (k = n \/ has_version d id k) /\ ~ (cond vn rem total = true /\ k = first_version_number id d).
Proof.
  intros B cs id v vn rem m H HK Hid Hw Hf d [n0 Hn0]. destruct (sim_hist cs db_empty _ sim_empty) as [s S]. fold d in S.
  pose proof (inv_history _ _ H) as I. rewrite map_length in I. fold (run_calls db_empty cs) in I. fold d in I.
  assert (Hu : uid_exists d (v_uid v) = false).
  { apply (fresh_history B); [apply H|]. apply Forall_map. eapply Forall_impl; [exact Hf|]. intros c Hc (b & y & Ey & Hy).
    injection Ey as Ey. assert (c = y) as -> by (destruct c, y; cbn in Ey; congruence). done. }
  destruct (s_objs s !! id) as [o|] eqn:Ho.
  2:{ unfold has_version in Hn0. rewrite (sim_get_ver d s id n0 S), Ho in Hn0. done. }
  destruct (put_sim _ d s id o v vn rem m S I HK Hid Ho) as (F1 & Hnew & Hall & Hex & S'); [|done|done|].
  { exists n0. by apply (sim_has d s id o). }
  exists (o_next o + 1)%N, (size (o_vers o)). split; [|split; [done|]].
  - intros k Hk. apply (sim_has d s id o) in Hk; [|done|done]. apply Hall in Hk as [? _]. lia.
  - intros k. rewrite (sim_has _ _ id _ k S') by apply lookup_insert. cbn [o_vers].
    rewrite (sim_has d s id o k S Ho). set (f := first_version_number id d) in *.
    assert (Hins : is_Some (<[(o_next o + 1)%N := with_seq (o_next o + 1) v]> (o_vers o) !! k) <-> k = (o_next o + 1)%N \/ is_Some (o_vers o !! k)).
    { destruct (decide (k = (o_next o + 1)%N)) as [->|Hk].
      - rewrite lookup_insert. split; [by left|by eexists].
      - rewrite lookup_insert_ne by done. split; [by right|intros [?|?]; done]. }
    destruct (cond vn rem (size (o_vers o))).
    + destruct (decide (k = f)) as [->|Hk].
      * rewrite lookup_delete. split; [intros [? X]; done|]. intros [_ X]. destruct X. done.
      * rewrite lookup_delete_ne by done. rewrite Hins. split; [intros X; split; [done|]; by intros [_ ?]|by intros [X _]].
    + rewrite Hins. split; [intros X; split; [done|]; by intros [? _]|by intros [X _]].
Qed.
