From Verif Require Import Rs_Main Break_Proofs.

(** * C128: a download answered with success is the whole object *)

(** For a copy on one data server: the answer is always a success, with whatever was read. *)
Theorem C128_exact : forall (B : Type) (l : list B) (e : ending) t,
  api_get (copy_all (Waiting (Some (l, e) :: t))) = Answer 200 l.
Proof. intros B l [| |] t; reflexivity. Qed.
Print Assumptions C128_exact.

(** If nothing breaks it is the content. *)
(** Partial.  Full statement: Whatever happens to the data server or the connection to it during a
    download of an object kept as copies, an answer with status 200 has exactly the content of the
    object as its body.  It fails in general: [C128_refused_refuted], [C128_cut_refuted],
    [C128_disk_refuted], [C128_at_once_refuted].  Refuted: a refused request is answered as an empty
    object with status 200; a broken connection as the part that came; a failing disk as the part
    that was read followed by the text of the error. *)
Theorem C128_whole_partial : forall (B : Type) (message content : list B) t,
  let s := Waiting (request (Some (data_get message content None)) None :: t) in
  api_get (copy_all s) = Answer 200 content /\ honest content (api_get (copy_all s)).
Proof.
  intros B message content t. cbn. split; [reflexivity|]. exists 200%Z, content. split; reflexivity.
Qed.
Print Assumptions C128_whole_partial.

(** A data server that refuses the request or does not answer: an empty success. *)
Theorem C128_refused_refuted : forall (B : Type) (content : list B) (ans : option (Z * list B)) cut t,
  content <> [] -> (forall st body, ans = Some (st, body) -> st <> 200%Z) ->
  let s := Waiting (request ans cut :: t) in
  api_get (copy_all s) = Answer 200 [] /\ ~ honest content (api_get (copy_all s)).
Proof.
  intros B content ans cut t Hc H s.
  assert (E : api_get (copy_all s) = Answer 200 []).
  { unfold s, request. destruct ans as [[st body]|]; [|reflexivity].
    destruct (Z.eqb_spec st 200) as [->|]; [destruct (H _ _ eq_refl eq_refl)|reflexivity]. }
  split; [exact E|]. rewrite E. intros (st & body & E2 & H2). injection E2 as <- <-. apply Hc. symmetry. apply H2. reflexivity.
Qed.
Print Assumptions C128_refused_refuted.

(** A connection that breaks: a success with what came before. *)
Theorem C128_cut_refuted : forall (B : Type) (message content : list B) j e t,
  j < length content ->
  let s := Waiting (request (Some (data_get message content None)) (Some (j, e)) :: t) in
  api_get (copy_all s) = Answer 200 (firstn j content) /\ ~ honest content (api_get (copy_all s)).
Proof.
  intros B message content j e t Hj s.
  assert (E : api_get (copy_all s) = Answer 200 (firstn j content)) by (cbn; destruct e; reflexivity).
  split; [exact E|]. rewrite E. intros (st & body & E2 & H2). injection E2 as <- <-.
  specialize (H2 eq_refl). apply (f_equal (@length B)) in H2. rewrite firstn_length in H2. lia.
Qed.
Print Assumptions C128_cut_refuted.

(** A disk that fails within the piece: a success with what came before and the text of
    the error of the data server, all of it with a regular end. *)
Theorem C128_disk_refuted : forall (B : Type) (message content : list B) k t,
  0 < k <= length content -> message <> skipn k content ->
  let s := Waiting (request (Some (data_get message content (Some k))) None :: t) in
  copy_all s = (firstn k content ++ message, RWhole) /\
  api_get (copy_all s) = Answer 200 (firstn k content ++ message) /\ ~ honest content (api_get (copy_all s)).
Proof.
  intros B message content k t Hk Hm s.
  assert (E : copy_all s = (firstn k content ++ message, RWhole)).
  { unfold s, data_get. destruct (firstn k content) as [|x l] eqn:E; [|reflexivity].
    apply (f_equal (@length B)) in E. rewrite firstn_length in E. cbn in E. lia. }
  rewrite E. split; [reflexivity|]. split; [reflexivity|]. intros (st & body & E2 & H2).
  cbn in E2. injection E2 as <- <-. specialize (H2 eq_refl). rewrite <- (firstn_skipn k content) in H2 at 2.
  apply app_inv_head in H2. contradiction.
Qed.
Print Assumptions C128_disk_refuted.

(** A disk that fails at once: the data server says so, and the API server answers an empty
    success; with a [Range] it answers an error. *)
Theorem C128_at_once_refuted : forall (B : Type) (message content : list B) t,
  content <> [] ->
  let s := Waiting (request (Some (data_get message content (Some 0))) None :: t) in
  fst (data_get message content (Some 0)) = 500%Z /\
  copy_all s = ([], RFailed) /\ api_get (copy_all s) = Answer 200 [] /\ ~ honest content (api_get (copy_all s)) /\
  api_get_range message s = Answer 500 message.
Proof.
  intros B message content t Hc s. split; [reflexivity|]. split; [reflexivity|]. split; [reflexivity|]. split; [|reflexivity].
  intros (st & body & E2 & H2). injection E2 as <- <-. apply Hc. symmetry. apply H2. reflexivity.
Qed.
Print Assumptions C128_at_once_refuted.

(** The API server itself knows: a copy is whole for it exactly if the answer ended in a
    regular way, and what it passes on is what it got, with or without a [Range]. *)
Theorem C128_known : forall (B : Type) (message l : list B) e t,
  copy_all (Waiting (Some (l, e) :: t)) = (l, match e with Clean => RWhole | _ => RFailed end) /\
  copy_all (Open l e) = (l, match e with Clean => RWhole | _ => RFailed end) /\
  api_get_range message (Waiting (Some (l, e) :: t)) = Answer 200 l /\ api_get_range message (Open l e) = Answer 200 l.
Proof. intros B message l [| |] t; repeat split; reflexivity. Qed.
Print Assumptions C128_known.

Example C128_known_cases :
  copy_all (Waiting [Some ([1; 2], Lost)]) = ([1; 2], RFailed) /\ copy_all (Open [1; 2] Clean) = ([1; 2], RWhole) /\
  data_get [9] [1; 2] (Some 0) = (500%Z, [9]) /\ api_get_range [9] (Waiting [Some ([1; 2], Closed)]) = Answer 200 [1; 2].
Proof. repeat split; reflexivity. Qed.

(** With a [Range] a refused request is answered with an error. *)
(** Partial; the full statement is at [C128_whole_partial]. *)
Theorem C128_range_partial : forall (B : Type) (message content : list B) (ans : option (Z * list B)) cut t,
  (forall st body, ans = Some (st, body) -> st <> 200%Z) ->
  let r := api_get_range message (Waiting (request ans cut :: t)) in
  r = Answer 500 message /\ honest content r.
Proof.
  intros B message content ans cut t H r.
  assert (E : r = Answer 500 message).
  { unfold r, request. destruct ans as [[st body]|]; [|reflexivity].
    destruct (Z.eqb_spec st 200) as [->|]; [destruct (H _ _ eq_refl eq_refl)|reflexivity]. }
  split; [exact E|]. rewrite E. exists 500%Z, message. split; [reflexivity|]. intros E2. discriminate.
Qed.
Print Assumptions C128_range_partial.

Example C128_nonvacuous :
  let content := [1; 2; 3; 4] in let message := [9; 9] in
  (forall st body, Some (500%Z, message) = Some (st, body) -> st <> 200%Z) /\
  api_get (copy_all (Waiting [request (Some (500%Z, message)) None])) = Answer 200 [] /\
  api_get (copy_all (Waiting [request (Some (data_get message content None)) (Some (3, Closed))])) = Answer 200 [1; 2; 3] /\
  (0 < 2 <= length content /\ message <> skipn 2 content) /\
  api_get (copy_all (Waiting [request (Some (data_get message content (Some 2))) None])) = Answer 200 [1; 2; 9; 9].
Proof.
  cbv zeta. split; [intros st body E; injection E as <- <-; discriminate|]. split; [reflexivity|]. split; [reflexivity|].
  split; [|reflexivity]. split; [cbn; lia|discriminate].
Qed.

(** * C129: erasure-coded downloads survive servers that fail meanwhile *)

(** If servers never answer, or break off between two blocks in any way, and no block
    lacks more than P shards, the download is complete. *)
(** Partial.  Full statement: If at most as many data servers as there are parity shards fail during
    a download, in whatever way, the download is the object.  It fails in general:
    [C129_crash_refuted], [C129_closed_refuted], [C129_disk_refuted], [C129_retry_refuted].
    Refuted: a connection lost within a block ends the API server; one closed within a block ends
    the download early with status 200; the error text of a failing disk is taken for the shard; a
    server that answers late gives its first block in place of a later one. *)
Theorem C129_boundary_partial : forall (B : Type) (lib : rs_lib B) c bts fuel avail src,
  0 < rc_data c -> 0 < rc_bps c -> mds lib (rc_data c) (rc_parity c) ->
  Forall (fun bt => length bt <= fuel) bts ->
  (forall k, k * block_size c < length (concat bts) -> missing (all_shards c) avail k <= rc_parity c) ->
  exists sent, upload lib c fuel bts = Some sent /\
    ((forall i, i < all_shards c -> gives (rc_bps c) (shard_bytes sent i) (avail i) (src i)) ->
     let r := rs_get lib c (map src (seq 0 (all_shards c))) (length (concat bts)) in
     r = Answer 200 (concat bts) /\ honest (concat bts) r).
Proof.
  intros B lib c bts fuel avail src H1 H2 H3 H4 H5. eexists.
  split; [apply (upload_spec lib c H1 H2); exact H4|]. intros Hs r.
  assert (E : r = Answer 200 (concat bts)) by (apply (boundary lib c H1 H2 H3 (concat bts) avail src Hs H5)).
  split; [exact E|]. rewrite E. exists 200%Z, (concat bts). split; reflexivity.
Qed.
Print Assumptions C129_boundary_partial.

(** A connection lost within a block ends the process of the API server, whatever the
    other servers do (here: within the first block). *)
Theorem C129_crash_refuted : forall (B : Type) (lib : rs_lib B) c ss size s (content : list B),
  In s ss -> torn (rc_bps c) Lost s -> 0 < size ->
  rs_get lib c ss size = Down /\ ~ honest content (rs_get lib c ss size).
Proof.
  intros B lib c ss size s content Hi Ht Hs. pose proof (crash lib c ss size s Hi Ht Hs) as E.
  split; [exact E|]. rewrite E. intros (st & body & E2 & _). discriminate.
Qed.
Print Assumptions C129_crash_refuted.

(** A connection closed within a block makes the download fail though the other shards
    would do. *)
Theorem C129_closed_refuted : forall (B : Type) (lib : rs_lib B) c ss size s r (content : list B),
  refuses lib -> In s ss -> In r ss -> torn (rc_bps c) Closed s -> ready (rc_bps c) r -> 0 < size -> content <> [] ->
  (rs_get lib c ss size = Answer 200 [] \/ rs_get lib c ss size = Down) /\ ~ honest content (rs_get lib c ss size).
Proof.
  intros B lib c ss size s r content HR Is Ir Ts Rr Hs Hc. pose proof (closed lib c ss size s r HR Is Ir Ts Rr Hs) as E.
  split; [exact E|]. intros (st & body & E2 & H). destruct E as [E|E]; rewrite E in E2; [|discriminate].
  injection E2 as <- <-. apply Hc. symmetry. apply H. reflexivity.
Qed.
Print Assumptions C129_closed_refuted.

(** Nothing is checked: if every shard brings a block, what the data shards bring is the
    answer, be it right or wrong (objects of one block). *)
Theorem C129_unchecked : forall (B : Type) (lib : rs_lib B) c ss,
  keeps lib (all_shards c) -> 0 < rc_bps c -> 0 < rc_data c -> length ss = all_shards c -> Forall (ready (rc_bps c)) ss ->
  rs_get lib c ss (block_size c) = Answer 200 (concat (map (first_block (rc_bps c)) (firstn (rc_data c) ss))).
Proof. intros B lib c ss. exact (unchecked lib c ss). Qed.
Print Assumptions C129_unchecked.

Definition cfg : rs_config := {| rc_data := 2; rc_parity := 1; rc_bps := 2 |}.
Definition object : list N := [1%N; 2%N; 3%N; 4%N; 5%N; 6%N; 7%N; 8%N].
Definition shards : list (list (list N)) := [[[1%N; 2%N]; [3%N; 4%N]; [2%N; 6%N]]; [[5%N; 6%N]; [7%N; 8%N]; [2%N; 14%N]]].
Definition text : list N := [9%N; 9%N; 9%N; 9%N].
(** The reader of shard [i], undisturbed. *)
Definition fine (i : nat) : option (feed N) :=
  Some (Waiting [request (Some (data_get text (shard_bytes shards i) None)) None]).

(** The disk of one server of three fails after half of its shard: the text of its error
    is taken for the rest of the shard. *)
Theorem C129_disk_refuted :
  upload xor_lib cfg 8 [object] = Some shards /\ mds xor_lib 2 1 /\
  rs_get xor_lib cfg [fine 0; fine 1; fine 2] 8 = Answer 200 object /\
  rs_get xor_lib cfg [None; fine 1; fine 2] 8 = Answer 200 object /\
  let broken := Some (Waiting [request (Some (data_get text (shard_bytes shards 0) (Some 2))) None]) in
  exists body, rs_get xor_lib cfg [broken; fine 1; fine 2] 8 = Answer 200 body /\ body <> object /\
    ~ honest object (rs_get xor_lib cfg [broken; fine 1; fine 2] 8).
Proof.
  split; [vm_compute; reflexivity|]. split; [exact xor_mds|]. split; [vm_compute; reflexivity|]. split; [vm_compute; reflexivity|].
  cbv zeta. eexists. split; [vm_compute; reflexivity|]. split; [discriminate|].
  intros (st & body & E & H). vm_compute in E. injection E as <- <-. specialize (H eq_refl). vm_compute in H. discriminate.
Qed.
Print Assumptions C129_disk_refuted.

(** A server that refuses the first request and answers the second: the reader starts
    anew with the first byte, in the middle of the object. *)
Theorem C129_retry_refuted :
  let late := Some (Waiting [request (Some (500%Z, text)) None;
                             request (Some (data_get text (shard_bytes shards 0) None)) None]) in
  rs_get xor_lib cfg [late; fine 1; fine 2] 8 = Answer 200 [1%N; 2%N; 3%N; 4%N; 1%N; 2%N; 7%N; 8%N] /\
  ~ honest object (rs_get xor_lib cfg [late; fine 1; fine 2] 8).
Proof.
  cbv zeta. assert (E : forall r, rs_get xor_lib cfg r 8 = Answer 200 [1%N; 2%N; 3%N; 4%N; 1%N; 2%N; 7%N; 8%N] ->
    ~ honest object (rs_get xor_lib cfg r 8)).
  { intros r -> (st & body & E2 & H). injection E2 as <- <-. specialize (H eq_refl). vm_compute in H. discriminate. }
  split; [vm_compute; reflexivity|]. apply E. vm_compute. reflexivity.
Qed.
Print Assumptions C129_retry_refuted.

Example C129_nonvacuous :
  (let avail := fun i => match i with O => Some 1 | _ => Some 2 end in
   (forall k, k * block_size cfg < 8 -> missing 3 avail k <= 1) /\
   (forall e, gives 2 (shard_bytes shards 0) (avail 0) (Some (Waiting [Some ([1%N; 2%N], e)]))) /\
   gives 2 (shard_bytes shards 1) (avail 1) (fine 1) /\ gives 2 (shard_bytes shards 2) (avail 2) (fine 2)) /\
  (torn 2 Lost (Some (Waiting [Some ([1%N], Lost)])) /\
   rs_get xor_lib cfg [Some (Waiting [Some ([1%N; 2%N; 5%N], Lost)]); fine 1; fine 2] 8 = Down) /\
  (refuses (strict xor_lib) /\ mds (strict xor_lib) 2 1 /\ torn 2 Closed (Some (Waiting [Some ([1%N], Closed)])) /\ ready 2 (fine 1) /\
   rs_get (strict xor_lib) cfg [Some (Waiting [Some ([1%N; 2%N; 5%N], Closed)]); fine 1; fine 2] 8 = Answer 200 [1%N; 2%N; 3%N; 4%N]) /\
  keeps xor_lib (all_shards cfg).
Proof.
  split; [|split; [|split]].
  - cbv zeta. split; [|split; [|split]].
    + intros k Hk. cbn [cfg block_size rc_bps rc_data] in Hk.
      change (block_size cfg) with 4 in Hk. destruct k as [|[|k]]; [vm_compute; lia|vm_compute; lia|lia].
    + intros e. exact (gives_some 2 (shard_bytes shards 0) 1 e [] ltac:(vm_compute; lia)).
    + exact (gives_whole 2 (shard_bytes shards 1) 2 Clean [] ltac:(vm_compute; lia) ltac:(discriminate)).
    + exact (gives_whole 2 (shard_bytes shards 2) 2 Clean [] ltac:(vm_compute; lia) ltac:(discriminate)).
  - split; [exists [1%N], []; split; [reflexivity|cbn; lia]|vm_compute; reflexivity].
  - split; [apply strict_refuses|]. split; [apply strict_mds, xor_mds|].
    split; [exists [1%N], []; split; [reflexivity|cbn; lia]|].
    split; [eexists _, _, _; split; [reflexivity|vm_compute; lia]|vm_compute; reflexivity].
  - exact xor_keeps.
Qed.

(** * C130: downloads through the admin server *)

(** An undisturbed answer is passed on: its content, or its status with an error text. *)
(** Partial.  Full statement: An answer of the admin server with status 200 has as its body what the
    API server sent as the object; errors of the API server keep their status.  It fails in general:
    [C130_cut_refuted], [C130_other_success_refuted].  Refuted: a broken download is a success that
    ends with the text of the error; a success other than 200 loses its content. *)
Theorem C130_passed_on_partial : forall (B : Type) (message l : list B) st,
  admin_download message (Some (200%Z, (l, Clean))) = (200%Z, l) /\
  (st <> 200%Z -> fst (admin_download message (Some (st, (l, Clean)))) = st) /\
  ((st / 100 =? 2)%Z = false -> admin_download message (Some (st, (l, Clean))) = (st, message)) /\
  admin_download message None = (500%Z, message).
Proof.
  intros B message l st. split; [cbn; rewrite app_nil_r; reflexivity|]. split; [|split; [|reflexivity]].
  - intros H. unfold admin_download. destruct (Z.eqb_spec st 200); [contradiction|reflexivity].
  - intros H. unfold admin_download. destruct (Z.eqb_spec st 200) as [->|]; [discriminate|]. rewrite H. reflexivity.
Qed.
Print Assumptions C130_passed_on_partial.

(** A broken one becomes a success whose content ends with the text of the error. *)
Theorem C130_cut_refuted : forall (B : Type) (message content : list B) j e,
  e <> Clean -> message <> skipn j content ->
  exists body, admin_download message (Some (200%Z, over_wire content (Some (j, e)))) = (200%Z, body) /\
    body = firstn j content ++ message /\ body <> content.
Proof.
  intros B message content j e He Hm. exists (firstn j content ++ message). split; [|split; [reflexivity|]].
  - cbn. destruct e; [contradiction|reflexivity|reflexivity].
  - intros H. rewrite <- (firstn_skipn j content) in H at 2. apply app_inv_head in H. contradiction.
Qed.
Print Assumptions C130_cut_refuted.

(** A success of another kind loses its content. *)
Theorem C130_other_success_refuted : forall (B : Type) (message content : list B) e st,
  (st / 100 =? 2)%Z = true -> st <> 200%Z -> content <> [] ->
  exists body, admin_download message (Some (st, (content, e))) = (st, body) /\ body <> content.
Proof.
  intros B message content e st H1 H2 H3. exists []. split; [|intros <-; contradiction]. unfold admin_download.
  destruct (Z.eqb_spec st 200); [contradiction|]. rewrite H1. reflexivity.
Qed.
Print Assumptions C130_other_success_refuted.

Example C130_nonvacuous :
  admin_download [9] (Some (200%Z, over_wire [1; 2; 3] (Some (2, Lost)))) = (200%Z, [1; 2; 9]) /\
  [9] <> skipn 2 [1; 2; 3] /\ admin_download [9] (Some (404%Z, ([8], Clean))) = (404%Z, [9]).
Proof. vm_compute. repeat split. discriminate. Qed.
