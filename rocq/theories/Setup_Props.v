(** Theorems about the settings of servers. *)
From Coq Require Import List Ascii ZArith Lia Bool Permutation.
From Verif Require Import Str_Model Str_Proofs Meta_Model Setup_Model Setup_Spec Setup_Proofs.
Import ListNotations.
Local Open Scope list_scope.
Local Open Scope Z_scope.

(** === C194: a server runs with the settings it is given === *)

(** For the examples: numbers in decimal, an environment, a file. *)
Definition dec (s : str) : option Z := atoi s.
Definition no_env : str -> option str := fun _ => None.
Definition one_var (k v : String.string) : str -> option str := fun x => if str_eqb x (s2l k) then Some (s2l v) else None.
Definition basic (more : list (String.string * sval)) : str -> option sval := fun k =>
  match find (fun p => str_eqb k (s2l (fst p))) (more ++ [("etcd.endpoint", VNames [s2l "e:1"%string]); ("etcd.username", VText (s2l "u"%string));
     ("etcd.password", VText (s2l "p"%string)); ("registry.name", VText (s2l "api"%string))]%string) with
  | Some p => Some (snd p) | None => None end.

(** What a field gets is what is asked for by the environment, else the file, else the
    default.
    Missing for the full statement: files that say no, 0 or "" (see the refutations). *)
Theorem C194_field_partial : forall num fs f env file v, In fs servers -> In f fs ->
  (forall z, file = Some z -> ~ blank z) -> (settle num f env file = Some v <-> asked num f env file v).
Proof. intros num fs f env file v A B N1. apply settle_iff; [exact N1 | eapply tables_fine; eassumption]. Qed.
Print Assumptions C194_field_partial.

(** The same of whole configurations. *)
(** Partial; the full statement is at [C194_field_partial]. *)
Theorem C194_all_partial : forall num fs env file l, In fs servers -> (forall k z, file k = Some z -> ~ blank z) ->
  settle_all num fs env file = Some l -> as_asked num fs env file l.
Proof.
  intros num fs env file l A N1 H. apply settle_all_nth in H as [L H]. split; [exact L|].
  intros i f F. destruct (H i f F) as (v & V1 & V2). exists v. split; [exact V1|].
  apply settle_iff in V2; [exact V2 | apply N1 |]. eapply tables_fine; [exact A | eapply nth_error_In, F].
Qed.
Print Assumptions C194_all_partial.

Example C194_nonvacuous :
  exists l, settle_all dec api_fields (one_var "OBJECTREPLICATIONCOPIES_COUNT" "5") (basic [("port"%string, VText (s2l "80"%string))]) = Some l /\
    In (s2l "port"%string, VText (s2l "80"%string)) l /\ In (s2l "object.replication.copies-count"%string, VNum 5) l /\
    In (s2l "object.reed-solomon.data-shards"%string, VNum 4) l /\ flag_at (s2l "object.replication.copy-async"%string) l = Some true.
Proof. eexists. split; [vm_compute; reflexivity|]. vm_compute. intuition. Qed.

(** Whatever the file says, a variable of the environment that is set decides. *)
Theorem C194_env : forall num f env file raw v, in_env f env = Some raw ->
  (settle num f env file = Some v <-> read_val num (f_kind f) raw = Some v).
Proof. intros num f env file raw v H. unfold settle. fold (in_env f env). rewrite H. reflexivity. Qed.
Print Assumptions C194_env.

Example C194_env_case :
  settle dec (flag "object.replication.copy-async" "OBJECTREPLICATIONCOPY_ASYNC" (Some true))
    (one_var "OBJECTREPLICATIONCOPY_ASYNC" "false") (Some (VFlag true)) = Some (VFlag false).
Proof. reflexivity. Qed.

(** What a variable says: a flag is one of twelve words, a list has commas between its names,
    unless there are only spaces, a text is itself. *)
Theorem C194_read : forall num s,
  (forall v, read_val num KFlag s = Some v <->
     (v = VFlag true /\ In s (map s2l ["1"; "t"; "T"; "true"; "True"; "TRUE"]%string)) \/
     (v = VFlag false /\ In s (map s2l ["0"; "f"; "F"; "false"; "False"; "FALSE"]%string))) /\
  (exists l, read_val num KNames s = Some (VNames l) /\
     ((l = [] /\ Forall (fun c => c = " "%char) s) \/ (commas l s /\ ~ Forall (fun c => c = " "%char) s))) /\
  read_val num KText s = Some (VText s) /\ (forall v, read_val num KNum s = Some v <-> exists n, num s = Some n /\ v = VNum n).
Proof.
  intros num s. split; [|split; [|split; [reflexivity|]]].
  - intros v. cbn [read_val]. unfold read_flag.
    destruct (existsb (str_eqb s) (map s2l ["1"; "t"; "T"; "TRUE"; "true"; "True"]%string)) eqn:Y.
    { apply existsb_exists in Y as (x & X & E1). apply str_eqb_eq in E1 as <-. split.
      - intros [= <-]. left. split; [reflexivity|]. cbn [map In] in X |- *. tauto.
      - intros [[-> _]|[_ Q]]; [reflexivity|]. exfalso. cbn [map In] in X, Q.
        repeat (destruct X as [X|X]; [subst s; repeat (destruct Q as [Q|Q]; [discriminate Q|]); exact Q|]). exact X. }
    destruct (existsb (str_eqb s) (map s2l ["0"; "f"; "F"; "FALSE"; "false"; "False"]%string)) eqn:Z1.
    { apply existsb_exists in Z1 as (x & X & E1). apply str_eqb_eq in E1 as <-. split.
      - intros [= <-]. right. split; [reflexivity|]. cbn [map In] in X |- *. tauto.
      - intros [[_ Q]|[-> _]]; [|reflexivity]. exfalso. cbn [map In] in X, Q.
        repeat (destruct X as [X|X]; [subst s; repeat (destruct Q as [Q|Q]; [discriminate Q|]); exact Q|]). exact X. }
    split; [discriminate|]. intros H.
    assert (K : forall l, existsb (str_eqb s) l = false -> ~ In s l).
    { intros l F I. assert (existsb (str_eqb s) l = true); [|congruence]. apply existsb_exists. exists s. split; [exact I | apply str_eqb_refl]. }
    apply K in Y, Z1. cbn [map In] in Y, Z1, H. tauto.
  - eexists. split; [reflexivity|]. unfold read_names. destruct (forallb (fun c => Ascii.eqb c " "%char) s) eqn:F.
    + left. split; [reflexivity|]. rewrite forallb_forall in F. apply Forall_forall. intros c I. apply Ascii.eqb_eq, F, I.
    + right. split; [apply split_commas|]. intros G. assert (forallb (fun c => Ascii.eqb c " "%char) s = true); [|congruence].
      apply forallb_forall. rewrite Forall_forall in G. intros c I. apply Ascii.eqb_eq, G, I.
  - intros v. cbn [read_val]. destruct (num s) as [n|]; cbn; split.
    + intros [= <-]. eauto.
    + intros (m & [= ->] & ->). reflexivity.
    + discriminate.
    + intros (m & C & _). discriminate.
Qed.
Print Assumptions C194_read.

Example C194_read_case : read_val dec KNames (s2l "a,,b"%string) = Some (VNames [s2l "a"%string; []; s2l "b"%string]) /\
  read_val dec KNames (s2l "  "%string) = Some (VNames []) /\ read_val dec KFlag (s2l "tRUE"%string) = None.
Proof. vm_compute. auto. Qed.

(** No server starts without what is required, nor with a variable that cannot be read. *)
Theorem C194_needed : forall num fs env file l f, settle_all num fs env file = Some l -> In f fs ->
  (f_need f = true -> in_env f env = None -> exists v, file (f_key f) = Some v /\ ~ blank v) /\
  (forall raw, in_env f env = Some raw -> read_val num (f_kind f) raw <> None).
Proof.
  intros num fs env file l f H I. apply settle_all_nth in H as [_ H]. apply In_nth_error in I as [i F].
  destruct (H i f F) as (v & _ & Hs). unfold settle in Hs. fold (in_env f env) in Hs. split.
  - intros Nd NE. rewrite NE in Hs. destruct (is_zero (file (f_key f))) eqn:Q; [rewrite Nd in Hs; discriminate|].
    destruct (file (f_key f)) as [z|]; [|discriminate]. exists z. split; [reflexivity|]. intros B. apply is_zero_blank in B. congruence.
  - intros raw R. rewrite R in Hs. congruence.
Qed.
Print Assumptions C194_needed.

Example C194_needed_case :
  settle_all dec data_fields no_env (basic []) = None /\
  settle_all dec data_fields no_env (basic [("base-mount-point"%string, VText (s2l "/"%string))]) <> None /\
  settle_all dec meta_fields (one_var "CLUSTERENABLE" "yes") (basic []) = None /\
  settle_all dec meta_fields (one_var "CLUSTERENABLE" "T") (basic []) <> None.
Proof. vm_compute. repeat split; discriminate. Qed.

(** Every setting of a server has its own key, and no two listen to the same variable. *)
Theorem C194_variables : forall fs i j f g, In fs servers -> nth_error fs i = Some f -> nth_error fs j = Some g -> i <> j ->
  f_key f <> f_key g /\ (f_var f <> None -> f_var f <> f_var g).
Proof.
  assert (K : Forall (fun fs => NoDup (map f_key fs) /\
     NoDup (flat_map (fun f => match f_var f with Some v => [v] | None => [] end) fs)) servers).
  { repeat (apply Forall_cons; [split; apply nodup_str_ok; vm_compute; reflexivity|]). apply Forall_nil. }
  intros fs i j f g A F G IJ. rewrite Forall_forall in K. destruct (K fs A) as [D1 D2]. split.
  - intros EQ. apply IJ. eapply NoDup_nth_error; [exact D1 | |].
    + rewrite map_length. apply nth_error_Some. congruence.
    + rewrite !nth_error_map, F, G. cbn. congruence.
  - intros V EQ. destruct (f_var f) as [x|] eqn:X; [|congruence]. clear K D1 V. revert i j F G IJ D2.
    assert (W : forall l k h, nth_error l k = Some h -> f_var h = Some x ->
      In x (flat_map (fun f => match f_var f with Some v => [v] | None => [] end) l)).
    { intros l k h H1 H2. apply in_flat_map. exists h. split; [eapply nth_error_In, H1|]. rewrite H2. left; reflexivity. }
    clear A. induction fs as [|h fs IH]; intros [|i] [|j] F G IJ D2; cbn [nth_error] in F, G; try discriminate; [congruence| | |].
    + injection F as ->. cbn [flat_map] in D2. rewrite X in D2. cbn [app] in D2. apply NoDup_cons_iff in D2 as [N1 _].
      apply N1. eapply W; [exact G | congruence].
    + injection G as ->. cbn [flat_map] in D2. rewrite <- EQ in D2. cbn [app] in D2. apply NoDup_cons_iff in D2 as [N1 _].
      apply N1. eapply W; [exact F | congruence].
    + apply (IH i j F G ltac:(congruence)). cbn [flat_map] in D2. destruct (f_var h); [apply NoDup_cons_iff in D2; apply D2 | exact D2].
Qed.
Print Assumptions C194_variables.

Example C194_variables_case : map (@List.length field) servers = [48; 32; 30; 17]%nat /\
  nth_error api_fields 0 = Some (text "port" "PORT" (Some "8080"%string)).
Proof. vm_compute. auto. Qed.

(** What a file says with no, 0 or "" is not heard where there is a default: the server runs
    with the default. *)
Theorem C194_blank_refuted : forall num fs f env z d, In fs servers -> In f fs -> f_def f = Some d -> in_env f env = None -> blank z ->
  settle num f env (Some z) = Some d.
Proof.
  intros num fs f env z d A B D N1 Bl. unfold settle. fold (in_env f env). rewrite N1. apply is_zero_blank in Bl. rewrite Bl, D.
  destruct (tables_fine fs f A B) as [->|C]; [reflexivity | congruence].
Qed.
Print Assumptions C194_blank_refuted.

Example C194_blank_case :
  settle dec (num "object.reed-solomon.parity-shards" "OBJECTREED_SOLOMONPARITY_SHARDS" (Some 2)) no_env (Some (VNum 0)) = Some (VNum 2) /\
  In (num "object.reed-solomon.parity-shards" "OBJECTREED_SOLOMONPARITY_SHARDS" (Some 2)) api_fields /\
  ~ asked dec (num "object.reed-solomon.parity-shards" "OBJECTREED_SOLOMONPARITY_SHARDS" (Some 2)) no_env (Some (VNum 0)) (VNum 2).
Proof.
  split; [reflexivity|]. split; [vm_compute; intuition|]. intros H. inversion H; discriminate.
Qed.

(** So there are two flags, and no more, that no file can switch off. *)
Theorem C194_flags_refuted : forall fs f, In fs servers -> In f fs -> f_kind f = KFlag ->
  ((forall num env, in_env f env = None -> settle num f env (Some (VFlag false)) = Some (VFlag true)) <->
   f_key f = s2l "object.replication.copy-async"%string \/ f_key f = s2l "object.reed-solomon.rewrite-async"%string).
Proof.
  assert (K : forallb (fun fs => forallb (fun f => match f_kind f with
     | KFlag => negb (f_need f) && Bool.eqb (match f_def f with Some (VFlag true) => true | _ => false end)
         (str_eqb (f_key f) (s2l "object.replication.copy-async"%string) || str_eqb (f_key f) (s2l "object.reed-solomon.rewrite-async"%string))
     | _ => true end) fs) servers = true) by (vm_compute; reflexivity).
  intros fs f A B C. rewrite forallb_forall in K. specialize (K fs A). rewrite forallb_forall in K. specialize (K f B).
  rewrite C in K. apply andb_true_iff in K as [Nd K]. apply negb_true_iff in Nd. apply eqb_prop in K.
  transitivity (f_def f = Some (VFlag true)).
  - split.
    + intros H. specialize (H (fun _ => None) (fun _ => None)). unfold settle, in_env in H.
      assert (Z0 : match f_var f with Some _ => None | None => None end = (None : option str)) by (destruct (f_var f); reflexivity).
      rewrite Z0 in H. specialize (H eq_refl). cbn [is_zero negb] in H. rewrite Nd in H. destruct (f_def f); congruence.
    + intros D num env N1. unfold settle. fold (in_env f env). rewrite N1. cbn [is_zero negb]. rewrite Nd, D. reflexivity.
  - rewrite <- !str_eqb_eq, <- orb_true_iff, <- K. destruct (f_def f) as [[[]|?|?|?]|]; split; intros H; congruence.
Qed.
Print Assumptions C194_flags_refuted.

(** An API server whose file says that the answer waits for repaired copies: it does not, and
    whatever goes wrong with them is not told. *)
Theorem C194_async_refuted : forall num env file l {A} (fault : option A),
  env (s2l "OBJECTREPLICATIONCOPY_ASYNC"%string) = None ->
  file (s2l "object.replication.copy-async"%string) = Some (VFlag false) ->
  settle_all num api_fields env file = Some l ->
  exists async, flag_at (s2l "object.replication.copy-async"%string) l = Some async /\ fix_close async fault = (false, None).
Proof.
  intros num env file l A fault V F H. apply settle_all_nth in H as [L H]. exists true. split; [|reflexivity].
  assert (NK : NoDup (map f_key api_fields)) by (apply nodup_str_ok; vm_compute; reflexivity).
  assert (MK : map fst l = map f_key api_fields).
  { apply nth_ext with (d := []) (d' := []); [rewrite !map_length; exact L|].
    intros n Hn. rewrite map_length in Hn. destruct (nth_error api_fields n) as [f|] eqn:X;
      [|apply nth_error_None in X; lia].
    destruct (H n f X) as (v & X1 & _).
    erewrite (nth_error_nth (map fst l)) by (rewrite nth_error_map, X1; reflexivity).
    erewrite (nth_error_nth (map f_key api_fields)) by (rewrite nth_error_map, X; reflexivity). reflexivity. }
  set (f := (flag "object.replication.copy-async" "OBJECTREPLICATIONCOPY_ASYNC" (Some true))%string).
  assert (X : nth_error api_fields 23 = Some f) by (vm_compute; reflexivity).
  destruct (H 23%nat f X) as (v & X1 & X2).
  unfold settle in X2. change (f_var f) with (Some (s2l "OBJECTREPLICATIONCOPY_ASYNC"%string)) in X2. cbv iota in X2. rewrite V in X2.
  change (f_key f) with (s2l "object.replication.copy-async"%string) in X2, X1. rewrite F in X2.
  change (f_need f) with false in X2. change (f_def f) with (Some (VFlag true)) in X2. cbn [is_zero negb] in X2. injection X2 as <-.
  eapply (flag_at_nth _ api_fields l 23 f true NK MK X eq_refl X1).
Qed.
Print Assumptions C194_async_refuted.

Example C194_async_case :
  exists l, settle_all dec api_fields no_env (basic [("object.replication.copy-async"%string, VFlag false)]) = Some l /\
    flag_at (s2l "object.replication.copy-async"%string) l = Some true /\
    fix_close true (Some 7) = (false, None) /\ fix_close false (Some 7) = (true, Some 7).
Proof. eexists. split; [vm_compute; reflexivity|]. vm_compute. auto. Qed.

(** === C195: a metadata server of a group starts and keeps to the timeouts given === *)

(** It starts just when the timeouts, settled one by one, are in order and not below the lease
    of the library, and keeps to them then. *)
Theorem C195_runs : forall num id env hb el h e, meta_raft num true id env hb el = RRuns h e <->
  id <> [] /\ settle num heartbeat_field env hb = Some (VNum h) /\ settle num election_field env el = Some (VNum e) /\ 500 <= h <= e.
Proof.
  intros num id env hb el h e. unfold meta_raft, new_raft.
  destruct (settle num heartbeat_field env hb) as [[|h'| |]|] eqn:H1;
    try (split; [discriminate | intros (_ & C & _); discriminate]).
  destruct (settle num election_field env el) as [[|e'| |]|] eqn:H2;
    try (split; [discriminate | intros (_ & _ & C & _); discriminate]).
  unfold raft_takes, lease. destruct (str_eqb_spec id []) as [->|NI]; cbn [negb andb].
  { split; [discriminate | intros [C _]; destruct (C eq_refl)]. }
  destruct ((5 <=? h') && (5 <=? e') && (500 <=? h') && (h' <=? e')) eqn:T.
  - rewrite !andb_true_iff, !Z.leb_le in T. split; [intros [= -> ->]; repeat split; auto; lia|].
    intros (_ & [= ->] & [= ->] & _). reflexivity.
  - split; [discriminate|]. intros (_ & [= ->] & [= ->] & B). rewrite !andb_false_iff, !Z.leb_gt in T. lia.
Qed.
Print Assumptions C195_runs.

Example C195_runs_case : meta_raft dec true (s2l "m"%string) no_env None None = RRuns 800 900 /\
  meta_raft dec true (s2l "m"%string) (one_var "CLUSTERELECTION_TIMEOUT" "3000") (Some (VNum 1500)) (Some (VNum 1000)) = RRuns 1500 3000.
Proof. vm_compute. auto. Qed.

(** A file with both, in order and of half a second at least, is kept to.
    Missing for the full statement: shorter ones and files with one of them. *)
Theorem C195_both_partial : forall num id env h e, id <> [] -> in_env heartbeat_field env = None -> in_env election_field env = None ->
  500 <= h <= e -> meta_raft num true id env (Some (VNum h)) (Some (VNum e)) = RRuns h e.
Proof.
  intros num id env h e NI A B R. apply C195_runs. unfold settle. fold (in_env heartbeat_field env). fold (in_env election_field env).
  rewrite A, B. cbn [is_zero]. destruct (Z.eqb_spec h 0); [lia|]. destruct (Z.eqb_spec e 0); [lia|]. auto.
Qed.
Print Assumptions C195_both_partial.

Example C195_both_case : meta_raft dec true (s2l "m"%string) no_env (Some (VNum 500)) (Some (VNum 500)) = RRuns 500 500.
Proof. reflexivity. Qed.

(** With a shorter heartbeat, the server does not start, in order with the election timeout or
    not. *)
Theorem C195_short_refuted : forall num id env h el, in_env heartbeat_field env = None -> 0 < h < 500 ->
  meta_raft num true id env (Some (VNum h)) el = RPanics.
Proof.
  intros num id env h el A R. destruct (meta_raft num true id env (Some (VNum h)) el) as [|h' e'|] eqn:H; [| |reflexivity].
  - unfold meta_raft, new_raft in H. destruct (settle _ _ _ (Some (VNum h))) as [[]|]; try discriminate.
    destruct (settle _ _ _ el) as [[]|]; try discriminate. destruct (raft_takes _ _ _); discriminate.
  - apply C195_runs in H as (_ & H & _ & B). unfold settle in H. fold (in_env heartbeat_field env) in H. rewrite A in H.
    cbn [is_zero] in H. destruct (Z.eqb_spec h 0); [lia|]. injection H as ->. lia.
Qed.
Print Assumptions C195_short_refuted.

Example C195_short_case : meta_raft dec true (s2l "m"%string) no_env (Some (VNum 200)) (Some (VNum 400)) = RPanics.
Proof. reflexivity. Qed.

(** Nor with a file that has one of the two, when it does not fit the default of the other. *)
Theorem C195_one_refuted : forall num id env t, in_env heartbeat_field env = None -> in_env election_field env = None ->
  (900 < t -> meta_raft num true id env (Some (VNum t)) None = RPanics) /\
  (0 < t < 800 -> meta_raft num true id env None (Some (VNum t)) = RPanics).
Proof.
  intros num id env t A B. unfold meta_raft, settle. fold (in_env heartbeat_field env). fold (in_env election_field env). rewrite A, B.
  split; intros R; cbn [is_zero]; (destruct (Z.eqb_spec t 0); [lia|]); cbn; unfold new_raft, raft_takes, lease.
  - destruct (Z.leb_spec t 900); [lia|]. rewrite !andb_false_r. reflexivity.
  - destruct (Z.leb_spec 800 t); [lia|]. rewrite !andb_false_r. reflexivity.
Qed.
Print Assumptions C195_one_refuted.

Example C195_one_case : meta_raft dec true (s2l "m"%string) no_env (Some (VNum 1000)) None = RPanics /\
  meta_raft dec true (s2l "m"%string) no_env None (Some (VNum 1000)) = RRuns 800 1000.
Proof. vm_compute. auto. Qed.

(** === C196: block sizes are raised to whole packets === *)

(** No block is made smaller; one that is a whole number of packets stays. *)
Theorem C196_least : forall bps data, 0 < bps -> 0 < data ->
  bps <= shard_block bps data /\ ((packet | bps * data) -> shard_block bps data = bps).
Proof.
  intros bps data B D. destruct (shard_block_up bps data B D) as (H1 & H2 & _). split; [exact H1|].
  intros X. apply H2. apply Z.rem_divide; [discriminate | exact X].
Qed.
Print Assumptions C196_least.

(** Where the shards of the raised block are of equal size, the block is the least whole number
    of packets that is enough.
    Missing for the full statement: numbers of shards that do not divide it. *)
Theorem C196_whole_partial : forall bps data, 0 < bps -> 0 < data -> (data | packet) ->
  (packet | shard_block bps data * data) /\ bps * data <= shard_block bps data * data < bps * data + packet.
Proof.
  intros bps data B D [c C]. destruct (shard_block_up bps data B D) as (H1 & H2 & H3).
  assert (PP : 0 < packet) by reflexivity. assert (P : 0 < bps * data) by nia.
  destruct (Z.eq_dec (Z.rem (bps * data) packet) 0) as [Z0|Z0].
  - rewrite (H2 Z0). split; [|lia]. apply Z.rem_divide; [discriminate | exact Z0].
  - destruct (H3 Z0) as (k & K1 & K2).
    assert (SB : shard_block bps data * data = k * packet).
    { rewrite K2, C, Z.mul_assoc, Z.div_mul by lia. reflexivity. }
    assert (M := Z.mod_pos_bound (bps * data) packet PP). rewrite Z.rem_mod_nonneg in Z0 by lia. rewrite SB.
    split; [exists k; reflexivity | lia].
Qed.
Print Assumptions C196_whole_partial.

Example C196_whole_case : shard_block 10000 4 = 16384 /\ shard_block 16384 4 = 16384 /\ shard_block 20000 8 = 24576 /\ (8 | packet).
Proof. repeat split; try (vm_compute; reflexivity). exists 8192. reflexivity. Qed.

(** With fewer shards than bytes in a packet, and a raised block they do not divide, the block
    is no whole number of packets. *)
Theorem C196_uneven_refuted : forall bps data, 0 < bps -> 0 < data < packet -> ~ (packet | bps * data) ->
  ~ (data | bps * data - (bps * data) mod packet + packet) -> ~ (packet | shard_block bps data * data).
Proof.
  intros bps data B [D D'] N1 N2. destruct (shard_block_up bps data B D) as (_ & _ & H3).
  destruct H3 as (k & K1 & K2); [intros Z0; apply N1, Z.rem_divide; [discriminate | exact Z0]|].
  rewrite <- K1 in N2. rewrite K2. intros [m M].
  assert (DM := Z.div_mod (k * packet) data ltac:(lia)). assert (MB := Z.mod_pos_bound (k * packet) data D).
  assert (NZ : (k * packet) mod data <> 0) by (intros C; apply N2, Z.mod_divide; [lia | exact C]).
  assert (EQ : k * packet - (k * packet) mod data = m * packet) by lia.
  assert (PP : packet = 65536) by reflexivity. set (r := (k * packet) mod data) in *. clearbody r. clear DM M K2 K1 N1 N2. rewrite PP in *. lia.
Qed.
Print Assumptions C196_uneven_refuted.

Example C196_uneven_case : shard_block 16384 3 = 21845 /\ 21845 * 3 = 65535 /\ 16384 * 3 - (16384 * 3) mod packet + packet = packet.
Proof. vm_compute. auto. Qed.

(** Blocks of copies are the least whole number of packets that is enough. *)
Theorem C196_copies : forall size, 0 <= size -> size <= copy_block size < size + packet /\ (packet | copy_block size).
Proof. exact copy_block_ok. Qed.
Print Assumptions C196_copies.

Example C196_copies_case : copy_block 32768 = 65536 /\ copy_block 65537 = 131072 /\ copy_block 0 = 0.
Proof. vm_compute. auto. Qed.

(** === C197: lost shards are stored before a block is handed over, if that is asked for === *)

(** When all goroutines were started before the waiting, nothing is left to do, and the answer is
    an error just if one of them had one.
    Missing for the full statement: that they were. *)
Theorem C197_waits_partial : forall {A} lost (before : list (wevent A)), NoDup lost ->
  let s := w_run false before (w_begin lost) in
  w_todo s = [] -> w_ret s = None -> forall r, w_ret (w_step false s WReturn) = Some r ->
  Permutation (map fst (w_done s)) lost /\ (r = None <-> Forall (fun x => snd x = None) (w_done s)) /\
  (forall x, r = Some x -> In (Some x) (map snd (w_done s))).
Proof.
  intros A lost before D s T R r H. destruct (w_run_inv lost false before _ D (w_begin_inv lost)) as (P & Q & E1). fold s in P, Q, E1.
  cbn [w_step] in H. rewrite R in H. destruct (w_on s) as [|x o] eqn:O; cbn [w_ret] in H; [|congruence]. injection H as <-.
  rewrite T in P. cbn [app] in P. rewrite app_nil_r in P. auto.
Qed.
Print Assumptions C197_waits_partial.

Example C197_waits_case :
  let s := w_run false [WAdd; WEnds 4 None; WAdd; WReturn; WEnds 1 (Some 9)] (w_begin [4; 1]%nat) in
  w_todo s = [] /\ w_ret s = None /\ w_ret (w_step false s WReturn) = Some (Some 9).
Proof. vm_compute. auto. Qed.

(** But they are started by another goroutine: with any shards lost, the block can be handed over
    as repaired before the first is started, and all that fails later is not told. *)
Theorem C197_early_refuted : forall {A} lost (later : list (wevent A)),
  w_done (w_run false [WReturn] (w_begin lost)) = @nil (nat * option A) /\
  w_todo (w_run false [@WReturn A] (w_begin lost)) = lost /\
  w_ret (w_run false (WReturn :: later) (w_begin lost)) = Some None.
Proof.
  intros A lost later. split; [reflexivity|]. split; [reflexivity|].
  assert (K : forall evs (s : wstate A) r, w_ret s = Some r -> w_ret (w_run false evs s) = Some r).
  { induction evs as [|e evs IH]; intros s r R; [exact R|]. cbn [w_run fold_left]. apply IH.
    destruct e as [|i fa|]; cbn [w_step]; [destruct (w_todo s); exact R | | rewrite R; exact R].
    destruct (existsb _ _); exact R. }
  apply (K later (w_step false (w_begin lost) WReturn) None). reflexivity.
Qed.
Print Assumptions C197_early_refuted.

Example C197_early_case :
  let s := w_run false [WReturn; WAdd; WAdd; WEnds 1 (Some 9); WEnds 4 (Some 8)] (w_begin [4; 1]%nat) in
  w_done s = [(1%nat, Some 9); (4%nat, Some 8)] /\ w_ret s = Some None.
Proof. vm_compute. auto. Qed.

(** When it is not asked for, reading never waits and no failure of it is told. *)
Theorem C197_async : forall {A} lost (before : list (wevent A)) r, w_ret (w_run true before (w_begin lost)) = Some r -> r = None.
Proof.
  intros A lost before r. assert (K : forall (s : wstate A), (forall x, w_ret s = Some x -> x = None) ->
    forall x, w_ret (w_run true before s) = Some x -> x = None).
  { induction before as [|e evs IH]; intros s B; [exact B|]. cbn [w_run fold_left]. apply IH.
    destruct e as [|i fa|]; cbn [w_step]; [destruct (w_todo s); exact B | destruct (existsb _ _); exact B|].
    destruct (w_ret s) eqn:R; [rewrite R; exact B|]. cbn [w_ret]. congruence. }
  apply K. discriminate.
Qed.
Print Assumptions C197_async.

Example C197_async_case : w_ret (w_run true [WAdd; WReturn; WEnds 4 (Some 9)] (w_begin [4; 1]%nat)) = Some None.
Proof. reflexivity. Qed.
