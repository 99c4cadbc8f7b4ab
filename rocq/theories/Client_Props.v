From Verif Require Import Str_Model Meta_Model Meta_Spec Api_Model Client_Model Client_Spec Client_Proofs.
From stdpp Require Import gmap.
Local Open Scope list_scope.
Local Notation length := List.length.

(** * C60: an object answered with a version number reads back as it was sent *)

(** Wanted: a client that announced the right digest and size, whether by [PUT] or by a
    resumable upload, whatever else goes on, and whose request was answered with number
    [n], reads back under [n] exactly what it sent until that version is removed.
    Proved for SHA-256 without collisions among the texts of the run, when the checksum is
    on (other clients may announce what they like) or when all clients announce the truth,
    and for resumable uploads that are not compressed.  Missing: wrong announcements
    without the checksum, and compressed resumable uploads; both are needed, see the
    refutations.  The number is obtained in the step [CStep k ch]; the answer may come
    later. *)
Theorem C60_read_back_partial : forall sha comp decomp other_size cf acts k ch acts2 t t' t2 l n,
  (forall x, length (sha x) = 64) -> (forall x, decomp (comp x) = x) ->
  let all := acts ++ CStep k ch :: acts2 in
  run_of all -> cf_checksum cf = true \/ Forall (honest sha) (flat_map started all) ->
  w_threads (crun sha cf world_start acts) !! k = Some t -> t_number t = None ->
  w_threads (crun sha cf world_start (acts ++ [CStep k ch])) !! k = Some t' -> t_number t' = Some n ->
  let w := crun sha cf world_start all in
  w_threads w !! k = Some t2 -> t_answered t2 <> None -> t_layout t2 = Some l ->
  let u := t_upload t in
  honest sha u -> (t_resumable t = true -> l_compress l = false) ->
  no_removal (u_id u) (Z.to_N n) acts2 -> collision_free sha w ->
  get_object comp decomp other_size w (u_bucket u) (u_name u) n = Some (u_sent u).
Proof.
  intros sha comp decomp other_size cf acts k ch acts2 t t' t2 l n Hlen Hcomp all Hrun Hmode.
  apply (read_back sha comp decomp other_size cf Hlen (fun u => cf_checksum cf = true \/ honest sha u)).
  - destruct (cf_checksum cf); [left; reflexivity|]. right. intros u [E|H]; [discriminate E|exact H].
  - exact Hcomp.
  - exact Hrun.
  - fold all. rewrite List.Forall_forall. destruct Hmode as [Hc|Hh].
    + intros u _. left. exact Hc.
    + rewrite List.Forall_forall in Hh. intros u Hu. right. exact (Hh u Hu).
Qed.
Print Assumptions C60_read_back_partial.

(** A stand-in for SHA-256 with the right length, for the examples. *)
Local Definition toy_sha (x : str) : str :=
  firstn 64 (print_N (fold_left (fun h c => (h * 257 + N_of_ascii c) mod (2 ^ 127 - 1))%N x 7%N) ++ repeat "x"%char 64).
Local Definition toy_comp (x : str) : str := "Z"%char :: x.
Local Definition toy_decomp (x : str) : str := tail x.
Local Definition toy_other (x : str) (_ : Z) : str := x.

Local Lemma toy_len x : length (toy_sha x) = 64.
Proof. unfold toy_sha. rewrite firstn_length, app_length, repeat_length. lia. Qed.

Local Lemma toy_decomp_comp x : toy_decomp (toy_comp x) = x.
Proof. reflexivity. Qed.

(** [collision_free] and the rest of the run conditions by computation. *)
Local Definition cf_b (w : world) : bool :=
  forallb (fun x => forallb (fun y => negb (bool_decide (toy_sha x = toy_sha y)) || bool_decide (x = y)) (hashed_texts w))
    (hashed_texts w).

Local Lemma cf_sound w : cf_b w = true -> collision_free toy_sha w.
Proof.
  unfold cf_b. rewrite forallb_forall. intros H x y Hx Hy E.
  specialize (H x (proj1 (elem_of_list_In _ _) Hx)). rewrite forallb_forall in H.
  specialize (H y (proj1 (elem_of_list_In _ _) Hy)). rewrite (bool_decide_eq_true_2 _ E) in H.
  exact (bool_decide_eq_true_1 _ H).
Qed.

Local Definition plain_b (c : call) : bool :=
  match c with AddVersion _ _ | MigrateVersion _ _ | UpdateVersion _ _ _ => false | _ => true end.
Local Definition ok_b (a : cact) : bool :=
  match a with CStep _ ch => match ch_uuids ch with [] => true | _ => false end | COther c => plain_b c | _ => true end.
Local Definition run_b (acts : list cact) : bool :=
  forallb ok_b acts && bool_decide (NoDup (map u_uid (flat_map started acts))) &&
  forallb (fun u => negb (bool_decide (u_uid u = []))) (flat_map started acts) && (N.of_nat (length acts) <? 2 ^ 31)%N.

Local Lemma run_sound acts : run_b acts = true -> run_of acts.
Proof.
  unfold run_b. rewrite !andb_true_iff. intros [[[A B] C] D]. split; [|split; [|split]].
  - apply List.Forall_forall. intros a Ha. rewrite forallb_forall in A. specialize (A a Ha).
    destruct a as [u|u|k ch|c]; simpl in *; try exact I.
    + destruct (ch_uuids ch); [constructor|discriminate].
    + destruct c; simpl in *; try discriminate; exact I.
  - exact (bool_decide_eq_true_1 _ B).
  - apply List.Forall_forall. intros u Hu. rewrite forallb_forall in C. specialize (C u Hu). intros E.
    rewrite (bool_decide_eq_true_2 _ E) in C. discriminate.
  - apply N.ltb_lt, D.
Qed.

Local Definition yes : Client_Model.choice := mk_choice true false [] [].
Local Definition no : Client_Model.choice := mk_choice false false [] [].
Local Notation "'bk'" := (s2l "b" : str) (only parsing).
Local Definition bkt_at (now : Z) (readonly compress : bool) : bucket := mk_bucket true readonly compress 0 0 0 10 1 now bk [].
Local Definition bkt := bkt_at 1.
Local Definition rs : layout := mk_layout ec_rs 0 0 false.
Local Definition cfg (checksum : bool) : config := mk_config checksum 1 (mk_defaults 4 2 3).
Local Definition up (name digest sent uid : str) : upload := mk_upload bk name digest (length sent) rs sent uid 1.
Local Definition good_up (name sent uid : str) : upload := up name (toy_sha sent) sent uid.
Local Definition hello : str := s2l "hello".
Local Definition wrong : str := s2l "wrong".
Local Definition steps (k : nat) (ch : Client_Model.choice) (n : nat) : list cact := repeat (CStep k ch) n.
Local Definition crun' := crun toy_sha.
Local Definition get' := get_object toy_comp toy_decomp toy_other.

(** With the checksum on: somebody announces the digest of "hello" and sends "wrong", which
    is refused; "hello" is stored compressed under one name and found in place for
    another, while an upload of the first name goes on. *)
Local Definition acts1 : list cact :=
  [COther (CreateBucket (bkt false true)); CPut (up (s2l "bad") (toy_sha hello) wrong (s2l "u0"))] ++ steps 0 no 1 ++ steps 0 yes 1 ++
  [CPut (good_up (s2l "one") hello (s2l "u1"))] ++ steps 1 yes 3 ++
  [CPut (good_up (s2l "one") wrong (s2l "u2"))] ++ steps 2 no 1 ++ steps 1 yes 1 ++
  [CPut (good_up (s2l "two") hello (s2l "u3"))] ++ steps 3 yes 2.
Local Definition acts1' : list cact := steps 2 yes 3 ++ [COther (RemoveMetadata (s2l "b/one"))].

Example C60_read_back_nonvacuous :
  let all := acts1 ++ CStep 3 yes :: acts1' in
  let w := crun' (cfg true) world_start all in
  run_of all /\ collision_free toy_sha w /\
  (exists t t' t2 l, w_threads (crun' (cfg true) world_start acts1) !! 3 = Some t /\ t_number t = None /\
    w_threads (crun' (cfg true) world_start (acts1 ++ [CStep 3 yes])) !! 3 = Some t' /\ t_number t' = Some 1%Z /\
    w_threads w !! 3 = Some t2 /\ t_answered t2 = Some 1%Z /\ t_layout t2 = Some l /\ l_compress l = true /\
    t_upload t = good_up (s2l "two") hello (s2l "u3") /\ honest toy_sha (t_upload t) /\ t_resumable t = false) /\
  no_removal (s2l "b/two") 1 acts1' /\
  match w_threads w !! 0 with Some t => t_answered t = None | None => False end /\
  match w_threads w !! 2 with Some t => t_answered t = Some 2%Z | None => False end /\
  get' w bk (s2l "two") 1 = Some hello /\ get' w bk (s2l "one") 1 = None.
Proof.
  cbv zeta. split; [apply run_sound; vm_compute; reflexivity|].
  split; [apply cf_sound; vm_compute; reflexivity|].
  split.
  - do 4 eexists. split; [vm_compute; reflexivity|]. split; [reflexivity|]. split; [vm_compute; reflexivity|].
    split; [reflexivity|]. split; [vm_compute; reflexivity|]. split; [reflexivity|]. split; [reflexivity|].
    split; [reflexivity|]. split; [vm_compute; reflexivity|]. split; [|reflexivity]. split; vm_compute; reflexivity.
  - split.
    + repeat constructor. intros [[R|R]|R]; discriminate R.
    + vm_compute. repeat split.
Qed.

(** Without the checksum: an uncompressed resumable upload and a [PUT] of the same content,
    all honest. *)
Local Definition acts2 : list cact :=
  [COther (CreateBucket (bkt false false)); CBig (good_up (s2l "big") hello (s2l "u1"))] ++ steps 0 no 3 ++ steps 0 yes 1.
Local Definition acts2' : list cact :=
  [CStep 0 yes; CPut (good_up (s2l "put") hello (s2l "u2"))] ++ steps 1 yes 3.

Example C60_read_back_resumable_nonvacuous :
  let all := acts2 ++ CStep 0 yes :: acts2' in
  let w := crun' (cfg false) world_start all in
  run_of all /\ Forall (honest toy_sha) (flat_map started all) /\ collision_free toy_sha w /\
  (exists t t' t2 l, w_threads (crun' (cfg false) world_start acts2) !! 0 = Some t /\ t_number t = None /\
    w_threads (crun' (cfg false) world_start (acts2 ++ [CStep 0 yes])) !! 0 = Some t' /\ t_number t' = Some 1%Z /\
    w_threads w !! 0 = Some t2 /\ t_answered t2 = Some 1%Z /\ t_layout t2 = Some l /\ l_compress l = false /\
    t_upload t = good_up (s2l "big") hello (s2l "u1") /\ t_resumable t = true) /\
  no_removal (s2l "b/big") 1 acts2' /\
  get' w bk (s2l "big") 1 = Some hello /\ get' w bk (s2l "put") 1 = Some hello.
Proof.
  cbv zeta. split; [apply run_sound; vm_compute; reflexivity|].
  split; [repeat constructor; vm_compute; reflexivity|].
  split; [apply cf_sound; vm_compute; reflexivity|].
  split.
  - do 4 eexists. split; [vm_compute; reflexivity|]. split; [reflexivity|]. split; [vm_compute; reflexivity|].
    split; [reflexivity|]. split; [vm_compute; reflexivity|]. split; [reflexivity|]. split; [reflexivity|].
    split; [reflexivity|]. split; [vm_compute; reflexivity|reflexivity].
  - split; [repeat constructor|]. vm_compute. repeat split.
Qed.

(** Without the checksum one client poisons another: "wrong" announced as "hello" is kept,
    found in place for an honest upload of "hello", and read back under its name. *)
Theorem C60_poisoned_refuted : exists cf acts u k,
  run_of acts /\ honest toy_sha u /\ collision_free toy_sha (crun' cf world_start acts) /\
  w_threads (crun' cf world_start acts) !! k = Some (PDone u (make_version (policy_of (bkt false false)) (cf_def cf) (u_want u)) (Some 1%Z)) /\
  get' (crun' cf world_start acts) (u_bucket u) (u_name u) 1 = Some wrong /\ u_sent u <> wrong.
Proof.
  exists (cfg false).
  exists ([COther (CreateBucket (bkt false false)); CPut (up (s2l "bad") (toy_sha hello) wrong (s2l "u0"))] ++ steps 0 no 1 ++ steps 0 yes 3 ++
    [CPut (good_up (s2l "good") hello (s2l "u1"))] ++ steps 1 yes 3).
  exists (good_up (s2l "good") hello (s2l "u1")), 1.
  split; [apply run_sound; vm_compute; reflexivity|]. split; [split; vm_compute; reflexivity|].
  split; [apply cf_sound; vm_compute; reflexivity|].
  split; [vm_compute; reflexivity|]. split; [vm_compute; reflexivity|]. discriminate.
Qed.
Print Assumptions C60_poisoned_refuted.

(** A compressed resumable upload of honest clients reads back as the compressed bytes. *)
Theorem C60_compressed_refuted : exists cf acts u l,
  run_of acts /\ Forall (honest toy_sha) (flat_map started acts) /\ collision_free toy_sha (crun' cf world_start acts) /\
  w_threads (crun' cf world_start acts) !! 0 = Some (BDone u l (Some 1%Z)) /\
  get' (crun' cf world_start acts) (u_bucket u) (u_name u) 1 = Some (toy_comp (u_sent u)) /\ toy_comp (u_sent u) <> u_sent u.
Proof.
  exists (cfg false).
  exists ([COther (CreateBucket (bkt false true)); CBig (good_up (s2l "big") hello (s2l "u1"))] ++ steps 0 no 3 ++ steps 0 yes 3).
  exists (good_up (s2l "big") hello (s2l "u1")), (mk_layout ec_rs 4 2 true).
  split; [apply run_sound; vm_compute; reflexivity|]. split; [repeat constructor; vm_compute; reflexivity|].
  split; [apply cf_sound; vm_compute; reflexivity|].
  split; [vm_compute; reflexivity|]. split; [vm_compute; reflexivity|]. discriminate.
Qed.
Print Assumptions C60_compressed_refuted.

(** With the checksum on, no resumable upload whatever is answered with a version: the
    digest is taken of temporary files under names no data server knows, and is compared
    with the version hash instead of the announced digest. *)
Theorem C60_resumable_refuted : forall sha cf acts t, (forall x, length (sha x) = 64) -> cf_checksum cf = true ->
  run_of acts -> t ∈ w_threads (crun sha cf world_start acts) -> t_resumable t = true -> t_number t = None.
Proof.
  intros sha cf acts t Hlen Hc Hrun. apply (no_resumable sha cf Hlen (fun _ => True)); try assumption.
  - left. exact Hc.
  - apply List.Forall_forall. intros u _. exact I.
Qed.
Print Assumptions C60_resumable_refuted.

Example C60_resumable_refuted_nonvacuous :
  let acts := acts2 ++ CStep 0 yes :: acts2' in
  run_of acts /\ Forall (honest toy_sha) (flat_map started acts) /\
  exists t, w_threads (crun' (cfg true) world_start acts) !! 0 = Some t /\ t_resumable t = true /\ t_answered t = None /\
    t_upload t = good_up (s2l "big") hello (s2l "u1").
Proof.
  cbv zeta. split; [apply run_sound; vm_compute; reflexivity|].
  split; [repeat constructor; vm_compute; reflexivity|].
  eexists. split; [vm_compute; reflexivity|]. split; [reflexivity|]. split; [reflexivity|]. vm_compute; reflexivity.
Qed.

(** A body that is cut short is refused, with the checksum and without, and changes
    nothing; a resumable upload that is not complete does not finish. *)
Theorem C60_cut_short : forall sha cf d m u l ch, bound u = true -> cut_short u = true ->
  advance sha cf d m (PUpload u l) ch = (d, m, PDone u l None) /\
  advance sha cf d m (BPatch u l) ch = (d, m, BDone u l None).
Proof.
  intros sha cf d m u l ch Hb Hc. unfold advance. split.
  - assert (A : accepted sha cf u = false).
    { unfold accepted. rewrite Hc. destruct (cf_checksum cf); [|reflexivity].
      apply bool_decide_eq_false_2. intros E. unfold bound in Hb. rewrite !andb_true_iff in Hb.
      destruct Hb as [[_ Hd] _]. apply bool_decide_eq_true_1 in Hd. congruence. }
    rewrite A. reflexivity.
  - unfold cut_short in Hc. apply Nat.ltb_lt in Hc. destruct (Nat.eqb_spec (length (u_sent u)) (u_size u)); [lia|reflexivity].
Qed.
Print Assumptions C60_cut_short.

(** The number answered is the one stored under, up to 2^31; after that it is negative. *)
Theorem C60_number : forall id v d d' n,
  dispatch (command true (AddVersion id v)) d = (d', RStatus 200 (Some n)) ->
  ((n < 2 ^ 31)%N -> save_version id v d = (d', Some (Z.of_N n))) /\
  ((2 ^ 31 <= n < 2 ^ 32)%N -> save_version id v d = (d', Some (Z.of_N n - 2 ^ 32)%Z)).
Proof.
  intros id v d d' n E. unfold save_version. rewrite E. change (200 =? 200)%Z with true. cbv iota. split; intros H.
  - rewrite (int32_small n H). reflexivity.
  - unfold int32. rewrite N.mod_small by apply H. destruct (Z.ltb_spec (Z.of_N n) (2 ^ 31)) as [L|_]; [|reflexivity].
    exfalso. destruct H as [H _]. apply N2Z.inj_le in H. change (Z.of_N (2 ^ 31)) with (2 ^ 31)%Z in H. lia.
Qed.
Print Assumptions C60_number.

Example C60_number_nonvacuous :
  let x : str := s2l "x" in
  let d := mk_db {[ x := mk_metadata x x 0 0 ]} {[ x := mk_vbucket (2 ^ 31 - 1) ∅ ]} ∅ ∅ ∅ in
  snd (dispatch (command true (AddVersion x (mk_version false 1 4 2 0 5 0 0 x x []))) d) = RStatus 200 (Some (2 ^ 31)%N) /\
  snd (save_version x (mk_version false 1 4 2 0 5 0 0 x x []) d) = Some (- 2 ^ 31)%Z.
Proof. vm_compute. split; reflexivity. Qed.

Example C60_cut_short_nonvacuous :
  let u := mk_upload bk (s2l "one") (toy_sha hello) 6 rs hello (s2l "u1") 1 in bound u = true /\ cut_short u = true.
Proof. vm_compute. split; reflexivity. Qed.

(** * C61: a read-only bucket takes no new version *)

(** Wanted: no request is answered with a version of an object in a bucket while the
    bucket is read-only.  Proved for requests that read the bucket while it is read-only,
    or missing: they never get a number.  Missing: requests that read it before; needed,
    see the refutation. *)
Theorem C61_readonly_partial : forall sha cf w k ch acts t t', w_threads w !! k = Some t ->
  t = PLocate (t_upload t) \/ t = BPost (t_upload t) ->
  match d_bkt (w_db w) !! u_bucket (t_upload t) with Some b => b_readonly b = true | None => True end ->
  w_threads (crun sha cf w (CStep k ch :: acts)) !! k = Some t' -> t_number t' = None.
Proof. exact readonly_refused. Qed.
Print Assumptions C61_readonly_partial.

Example C61_readonly_nonvacuous :
  let w := crun' (cfg true) world_start [COther (CreateBucket (bkt true false)); CPut (good_up (s2l "one") hello (s2l "u1"))] in
  w_threads w !! 0 = Some (PLocate (good_up (s2l "one") hello (s2l "u1"))) /\
  match d_bkt (w_db w) !! (bk : str) with Some b => b_readonly b = true | None => False end /\
  (* writable again, the same request still gets nothing *)
  match d_bkt (w_db (crun' (cfg true) w (CStep 0 yes :: COther (UpdateBucket (bkt_at 2 false false)) :: steps 0 yes 5))) !! (bk : str) with
  | Some b => b_readonly b = false | None => False end /\
  match w_threads (crun' (cfg true) w (CStep 0 yes :: COther (UpdateBucket (bkt_at 2 false false)) :: steps 0 yes 5)) !! 0 with
  | Some t => t_number t = None | None => False end.
Proof. vm_compute. repeat split. Qed.

(** A resumable upload begun before the bucket was made read-only is finished after. *)
Theorem C61_readonly_refuted : exists cf acts u l acts2,
  run_of (acts ++ acts2) /\
  (forall i, match d_bkt (w_db (crun' cf world_start (acts ++ firstn i acts2))) !! u_bucket u with Some b => b_readonly b = true | None => False end) /\
  w_threads (crun' cf world_start acts) !! 0 = Some (BPatch u l) /\
  w_threads (crun' cf world_start (acts ++ acts2)) !! 0 = Some (BDone u l (Some 1%Z)).
Proof.
  exists (cfg false).
  exists ([COther (CreateBucket (bkt false false)); CBig (good_up (s2l "big") hello (s2l "u1"))] ++ steps 0 no 1 ++
    [COther (UpdateBucket (bkt_at 2 true false))]).
  exists (good_up (s2l "big") hello (s2l "u1")), (mk_layout ec_rs 4 2 false), (steps 0 no 2 ++ steps 0 yes 3).
  split; [apply run_sound; vm_compute; reflexivity|]. split.
  - intros i. destruct i as [|[|[|[|[|i]]]]]; [vm_compute; reflexivity..|].
    rewrite firstn_all2 by (simpl; lia). vm_compute. reflexivity.
  - split; vm_compute; reflexivity.
Qed.
Print Assumptions C61_readonly_refuted.

(** * C62: different objects have different records *)

(** Names in requests contain no slash (the router's [:name] ends at one). *)
Theorem C62_ids : forall b n b' n', ~ In "/"%char n -> ~ In "/"%char n' ->
  object_id b n = object_id b' n' -> b = b' /\ n = n'.
Proof. exact object_id_inj. Qed.
Print Assumptions C62_ids.

Example C62_ids_nonvacuous : ~ In "/"%char (s2l "name" : str) /\ object_id (s2l "a/b") (s2l "c") = object_id (s2l "a") (s2l "b/c").
Proof. split; [|reflexivity]. simpl. intuition discriminate. Qed.
