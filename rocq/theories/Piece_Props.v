(** Properties of uploads of pieces to a data server and of its counter of stored bytes
    (C71-C73). *)
From Verif Require Import Str_Model Migrate_Model Migrate_Spec Migrate_Proofs Piece_Model Piece_Spec Piece_Proofs.
From stdpp Require Import gmap.
Local Open Scope list_scope.

Definition mnt : str := s2l "/data"%string.
Definition id1 : str := s2l "TempInfo_1"%string.
Definition id2 : str := s2l "TempInfo_2"%string.
Definition nm : str := s2l "hash.0"%string.
Definition ab : str := s2l "ab"%string.
(** Pages of 4 bytes; the relative path leads to the only mount point, or elsewhere. *)
Definition cfg_here : pconf := mk_pconf mnt 4 (fun s => s2l "s2:"%string ++ s).
Definition cfg_else : pconf := mk_pconf (s2l "/home"%string) 4 (fun s => s).

(** ** C71 *)

(** Full statement: once the notifications are handled, every temporary file belongs to
    an upload the server knows.
[forall c h, ps_events (prun c h p0) = [] -> no_leftover (prun c h p0).]
    Missing: restarts, and mount points other than the one the cleaner looks at. *)
Theorem C71_no_leftover_partial : forall c h, List.Forall (tidy_op c) h ->
  ps_events (prun c h p0) = [] -> no_leftover (prun c h p0).
Proof. exact no_leftover_run. Qed.
Print Assumptions C71_no_leftover_partial.

(** And the notifications can be handled in any state. *)
(** Partial; the full statement is at [C71_no_leftover_partial]. *)
Theorem C71_cleaned_partial : forall c h, List.Forall (tidy_op c) h ->
  exists n, no_leftover (prun c (h ++ replicate n (OClean 0)) p0).
Proof.
  intros c h F. destruct (clean_all c (prun c h p0)) as [n E]. exists n.
  apply no_leftover_run.
  - apply List.Forall_app. split; [exact F|]. clear. induction n as [|n IH]; constructor; [exact I|exact IH].
  - unfold prun in *. rewrite fold_left_app. exact E.
Qed.
Print Assumptions C71_cleaned_partial.

Definition hist : list pop :=
  [OPost nm 6 mnt id1; OPatch id1 ab None; OPost nm 6 mnt id2; OPatch id2 ab None; OPut id2 true; OExpire id1].
Example C71_case : List.Forall (tidy_op cfg_here) hist /\
  size (ps_temp (prun cfg_here hist p0)) = 2 /\
  ps_temp (prun cfg_here (hist ++ [OClean 1; OClean 0]) p0) !! (mnt, id1) = None /\
  ps_temp (prun cfg_here (hist ++ [OClean 1; OClean 0]) p0) !! (mnt, id2) = None.
Proof.
  split; [repeat constructor|]. split; [vm_compute; reflexivity|]. split; vm_compute; reflexivity.
Qed.

(** On every other mount point a file stays whatever happens to its upload, unless it is
    committed or appended to. *)
Theorem C71_mount_refuted : forall c h s mp id x, mp <> pc_base c ->
  List.Forall (fun o => match o with OPut i _ => i <> id | OPatch i _ _ => i <> id | _ => True end) h ->
  ps_temp s !! (mp, id) = Some x -> ps_temp (prun c h s) !! (mp, id) = Some x.
Proof. exact stays. Qed.
Print Assumptions C71_mount_refuted.

(** The same after the commit of a compressed piece, and after a restart. *)
Theorem C71_leftover_refuted :
  (let s := prun cfg_else [OPost nm 6 mnt id1; OPatch id1 ab None; OPut id1 true; OClean 0] p0 in
   ps_events s = [] /\ ps_cache s !! id1 = None /\ ps_temp s !! (mnt, id1) <> None) /\
  (let s := prun cfg_here [OPost nm 6 mnt id1; OPatch id1 ab None; ORestart] p0 in
   ps_events s = [] /\ ps_cache s !! id1 = None /\ ps_temp s !! (mnt, id1) <> None).
Proof.
  split; (split; [vm_compute; reflexivity|]); (split; [vm_compute; reflexivity|]); vm_compute; discriminate.
Qed.
Print Assumptions C71_leftover_refuted.

(** ** C72 *)

(** Whatever else the server does, until an upload is ended, given up or forgotten its
    file is the padded bodies that arrived, HEAD tells its length up to the size
    announced, and a commit stores it. *)
Theorem C72_commit : forall c h1 (name : str) sz (mp id : str) h2, 0 < sz -> unused id h1 -> List.Forall (leaves id) h2 ->
  bodies id h2 <> [] ->
  let s := prun c (h1 ++ OPost name sz mp id :: h2) p0 in
  let x := content (pc_page c) (bodies id h2) in
  Piece_Model.head id s = Some (Nat.min (List.length x) sz) /\
  (ps_objs s !! (mp, name) = None ->
   snd (pstep c s (OPut id false)) = 200%Z /\
   ps_objs (fst (pstep c s (OPut id false))) !! (mp, name) = Some x /\
   (x <> [] -> snd (pstep c s (OPut id true)) = 200%Z /\
               ps_objs (fst (pstep c s (OPut id true))) !! (mp, name) = Some (pc_comp c x))) /\
  (forall old compress, ps_objs s !! (mp, name) = Some old ->
   snd (pstep c s (OPut id compress)) = 200%Z /\
   ps_objs (fst (pstep c s (OPut id compress))) !! (mp, name) = Some old).
Proof.
  intros c h1 name sz mp id h2 P U L N s x.
  assert (ongoing c id (mk_tinfo id name sz mp) (Some x) s) as [_ C _ T].
  { unfold s, prun. rewrite fold_left_app. cbn [fold_left].
    pose proof (ongoing_run c id (mk_tinfo id name sz mp) h2 None _ L
      (post_ongoing c id name sz mp _ P (blank_run c id h1 p0 U (blank_0 id)))) as G.
    unfold grow in G. unfold x. destruct (bodies id h2); [contradiction|exact G]. }
  cbn [ti_mp] in T. clearbody s x. split; [|split].
  - unfold Piece_Model.head. rewrite C. cbn [ti_mp ti_size ti_id].
    unfold str in *. rewrite T. reflexivity.
  - intros O. cbn [pstep]. unfold put, commit. rewrite C. cbn [ti_mp ti_name ti_id]. unfold str in *. rewrite O, T. cbn [Z.eqb].
    split; [reflexivity|]. split.
    + cbn [Z.eqb Pos.eqb fst]. rewrite drop_objs. cbn [ps_objs]. apply lookup_insert.
    + intros X. destruct x as [|b x]; [contradiction|]. split; [reflexivity|].
      cbn [fst Z.eqb Pos.eqb]. rewrite drop_objs. cbn [ps_objs]. apply lookup_insert.
  - intros old z O. cbn [pstep]. unfold put, commit. rewrite C. cbn [ti_mp ti_name ti_id]. unfold str in *. rewrite O. cbn [Z.eqb].
    split; [reflexivity|]. cbn [Z.eqb Pos.eqb fst]. rewrite drop_objs. exact O.
Qed.
Print Assumptions C72_commit.

(** Before the first body HEAD tells that nothing has arrived and there is nothing to
    commit. *)
Theorem C72_new : forall c h1 (name : str) sz (mp id : str) h2 compress, 0 < sz -> unused id h1 -> List.Forall (leaves id) h2 ->
  bodies id h2 = [] ->
  let s := prun c (h1 ++ OPost name sz mp id :: h2) p0 in
  Piece_Model.head id s = Some 0 /\ (ps_objs s !! (mp, name) = None -> snd (pstep c s (OPut id compress)) = 404%Z).
Proof.
  intros c h1 name sz mp id h2 z P U L N s.
  assert (ongoing c id (mk_tinfo id name sz mp) None s) as [_ C _ T].
  { unfold s, prun. rewrite fold_left_app. cbn [fold_left].
    pose proof (ongoing_run c id (mk_tinfo id name sz mp) h2 None _ L
      (post_ongoing c id name sz mp _ P (blank_run c id h1 p0 U (blank_0 id)))) as G.
    unfold grow in G. rewrite N in G. exact G. }
  cbn [ti_mp] in T. clearbody s. split.
  - unfold Piece_Model.head. rewrite C. cbn [ti_mp ti_size ti_id]. unfold str in *. rewrite T. reflexivity.
  - intros O. cbn [pstep]. unfold put, commit. rewrite C. cbn [ti_mp ti_name ti_id]. unfold str in *. rewrite O, T. reflexivity.
Qed.
Print Assumptions C72_new.

Example C72_new_case : unused id1 [] /\ List.Forall (leaves id1) [OClean 0] /\ bodies id1 [OClean 0] = [].
Proof. split; [constructor|]. split; [repeat constructor|reflexivity]. Qed.

(** A body without bytes is refused and changes nothing; an upload that is not known is
    not found. *)
Theorem C72_empty : forall c s id arrived body,
  pstep c s (OPatch id [] arrived) = (s, match ps_cache s !! id with Some _ => 400%Z | None => 404%Z end) /\
  (ps_cache s !! id = None -> pstep c s (OPatch id body arrived) = (s, 404%Z) /\ Piece_Model.head id s = None).
Proof.
  intros c s id arrived body. cbn [pstep]. unfold patch, Piece_Model.head. split; [destruct (ps_cache s !! id); reflexivity|].
  intros ->. auto.
Qed.
Print Assumptions C72_empty.

Example C72_commit_case : unused id1 [OPost nm 6 mnt id2; OPatch id2 ab None; ODelete id2] /\
  List.Forall (leaves id1) [OPatch id1 (ab ++ ab) None; OClean 0; OPatch id1 ab None] /\
  bodies id1 [OPatch id1 (ab ++ ab) None; OClean 0; OPatch id1 ab None] = [(ab ++ ab, None); (ab, None)] /\
  content 4 [(ab ++ ab, None); (ab, None)] = ab ++ ab ++ ab ++ [zero_byte; zero_byte].
Proof.
  split; [|split; [|split; vm_compute; reflexivity]].
  - constructor; [discriminate|]. constructor; [exact I|]. constructor; [exact I|constructor].
  - repeat constructor.
Qed.

(** Full statement: the file is the bodies the server acknowledged, padded at the end.
[forall page l, content page l = pad page (List.concat (map fst (filter acknowledged l))).]
    Missing: bodies that do not fill whole pages before the last, bodies that break off. *)
Theorem C72_bytes_partial : forall page l, 0 < page -> l <> [] -> aligned page l ->
  content page l = pad page (List.concat (map fst l)).
Proof. exact content_aligned. Qed.
Print Assumptions C72_bytes_partial.

Example C72_bytes_case : aligned 4 [(ab ++ ab, None); (ab, None)].
Proof. cbn. auto. Qed.

(** Two bodies of half a page: zeros between them.  A body that breaks off is answered
    with 500 but stays, and its repetition follows it. *)
Theorem C72_bytes_refuted :
  content 4 [(ab, None); (ab, None)] = ab ++ [zero_byte; zero_byte] ++ ab ++ [zero_byte; zero_byte] /\
  (let h := [OPost nm 6 mnt id1; OPatch id1 (ab ++ ab) (Some 2)] in
   snd (pstep cfg_here (prun cfg_here [OPost nm 6 mnt id1] p0) (OPatch id1 (ab ++ ab) (Some 2))) = 500%Z /\
   ps_temp (prun cfg_here (h ++ [OPatch id1 (ab ++ ab) None]) p0) !! (mnt, id1) =
     Some (ab ++ [zero_byte; zero_byte] ++ ab ++ ab)).
Proof. split; [vm_compute; reflexivity|]. split; vm_compute; reflexivity. Qed.
Print Assumptions C72_bytes_refuted.

(** A body that breaks off at once leaves an empty file; committing it compressed is
    answered with 500, trying again with 200, and the object is empty. *)
Theorem C72_empty_refuted :
  let s := prun cfg_here [OPost nm 6 mnt id1; OPatch id1 ab (Some 0)] p0 in
  snd (pstep cfg_here s (OPut id1 true)) = 500%Z /\
  snd (pstep cfg_here (fst (pstep cfg_here s (OPut id1 true))) (OPut id1 true)) = 200%Z /\
  ps_objs (fst (pstep cfg_here (fst (pstep cfg_here s (OPut id1 true))) (OPut id1 true))) !! (mnt, nm) = Some [].
Proof. vm_compute. repeat split; reflexivity. Qed.
Print Assumptions C72_empty_refuted.

(** ** C73 *)

(** Full statement: when no goroutine is left the counter is the size of the files.
[forall ops, cs_pend (cap_run ops c0) = [] -> cs_cap (cap_run ops c0) = total_size (cs_objs (cap_run ops c0)).]
    Missing: compressed pieces, goroutines that are late, repeated receipts, restarts. *)
Theorem C73_counter_partial : forall ops, prompt c0 ops -> settled (cap_run (promptly ops) c0).
Proof. intros ops P. apply settled_run; [split; reflexivity|exact P]. Qed.
Print Assumptions C73_counter_partial.

Definition cops : list cop :=
  [CPut nm 6 8 false; CCommit id1 4 4 false; CReceive id2 12; CDelete id1; CPut nm 1 4 false].
Example C73_counter_case : prompt c0 cops /\ cs_cap (cap_run (promptly cops) c0) = 20%Z.
Proof.
  split; [|vm_compute; reflexivity]. unfold cops.
  split; [reflexivity|]. split; [reflexivity|]. split; [vm_compute; reflexivity|]. split; [exact I|]. split; [reflexivity|exact I].
Qed.

(** So a server that leaves moves all its files. *)
(** Partial; the full statement is at [C73_counter_partial]. *)
Theorem C73_leave_partial : forall ops peers, prompt c0 ops ->
  let s := cap_run (promptly ops) c0 in
  peers <> [] -> List.Forall (fun kv => (0 <= snd kv)%Z) peers ->
  map_Forall (fun _ n => (0 < n)%Z) (cs_objs s) -> cs_objs s <> ∅ -> (cs_cap s + sum_of peers < 2 ^ 53)%Z ->
  exists plan, deviation_values (cs_cap s) peers false = Some plan /\
    map (fun x => (fst (fst x), snd x)) (sending_plan plan (map_to_list (cs_objs s))) = map_to_list (cs_objs s).
Proof.
  intros ops peers P s Hne Hp Hpos Hobj Hlt. destruct (C73_counter_partial ops P) as [_ E]. fold s in E. clearbody s.
  assert (total_size (cs_objs s) = sum_of (map_to_list (cs_objs s))) as T.
  { unfold total_size, sum_of, map_fold. cbn [compose].
    induction (map_to_list (cs_objs s)) as [|[k n] l IH]; [reflexivity|]. cbn. rewrite IH. reflexivity. }
  assert (List.Forall (fun f : str * Z => (0 < snd f)%Z) (map_to_list (cs_objs s))) as F.
  { apply List.Forall_forall. intros [k n] I. apply elem_of_list_In, elem_of_map_to_list in I. exact (Hpos k n I). }
  assert (0 < cs_cap s)%Z as C.
  { rewrite E, T. destruct (map_to_list (cs_objs s)) as [|[k n] l] eqn:M.
    - apply map_to_list_empty_iff in M. contradiction.
    - inversion F as [|? ? F1 F2]; subst. cbn [snd] in F1.
      assert (0 <= sum_of l)%Z.
      { clear -F2. induction F2 as [|[k n] l H _ IH]; [cbn; lia|]. unfold sum_of in *. cbn in *. lia. }
      unfold sum_of in *. cbn. lia. }
  destruct (leave_plan (cs_cap s) peers Hne Hp C Hlt) as (plan & Hd & Hs & Hin). exists plan. split; [exact Hd|].
  apply plan_covers.
  - intros ->. unfold sum_of in Hs at 1. cbn in Hs. lia.
  - exact F.
  - apply List.Forall_forall. intros [k q] I. apply (Hin k q I).
  - rewrite <- T, <- E. exact Hs.
Qed.
Print Assumptions C73_leave_partial.

(** A compressed upload counts what came in, its deletion what was on the disk; a
    compressed commit does not count; a goroutine that looks for a file already deleted
    does not count it, the deletion does; a repeated receipt counts twice; at a start the
    directories count. *)
Theorem C73_counter_refuted :
  cs_cap (cap_run [CPut nm 100 40 true; CRun 0; CDelete nm; CRun 0] c0) = 60%Z /\
  cs_cap (cap_run [CCommit nm 100 40 true; CDelete nm; CRun 0] c0) = (-40)%Z /\
  cs_cap (cap_run [CCommit nm 100 100 false; CDelete nm; CRun 0; CRun 0] c0) = (-100)%Z /\
  (let s := cap_run [CReceive nm 100; CReceive nm 100] c0 in cs_cap s = 200%Z /\ total_size (cs_objs s) = 100%Z) /\
  cs_cap (cap_run [CStart 4096] c0) = 4096%Z.
Proof. repeat split; vm_compute; reflexivity. Qed.
Print Assumptions C73_counter_refuted.

(** A start counts anew: whatever went wrong before, the number is the sizes of the files and
    directories, and nothing is left to be counted. *)
Theorem C73_start : forall ops dirs, let s := cap_run ops c0 in
  cs_cap (cap_run (ops ++ [CStart dirs]) c0) = (total_size (cs_objs s) + dirs)%Z /\
  cs_pend (cap_run (ops ++ [CStart dirs]) c0) = [] /\ cs_objs (cap_run (ops ++ [CStart dirs]) c0) = cs_objs s.
Proof. intros ops dirs s. unfold cap_run. rewrite fold_left_app. repeat split. Qed.
Print Assumptions C73_start.

Example C73_start_case : cs_cap (cap_run [CReceive nm 100; CReceive nm 100; CStart 0] c0) = 100%Z.
Proof. vm_compute. reflexivity. Qed.

(** Whence a server that leaves, one of whose pieces was committed compressed, reports
    success and keeps a file. *)
Theorem C73_leave_refuted : exists ops peers plan,
  let s := cap_run ops c0 in
  cs_pend s = [] /\ deviation_values (cs_cap s) peers false = Some plan /\
  List.length (map_to_list (cs_objs s)) = 2 /\
  List.length (sending_plan plan (map_to_list (cs_objs s))) = 1.
Proof.
  exists [CCommit nm 100 40 true; CPut id1 8 8 false; CRun 0], [(mnt, 0%Z)], [(mnt, 8%Z)].
  cbv zeta. split; [vm_compute; reflexivity|]. split; [vm_compute; reflexivity|]. split; vm_compute; reflexivity.
Qed.
Print Assumptions C73_leave_refuted.
