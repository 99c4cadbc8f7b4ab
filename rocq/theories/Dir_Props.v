(** Where a data server keeps its files (C155, C156) and files it takes over (C157). *)
From Coq Require Import List Bool Arith NArith ZArith Ascii Lia.
From Verif Require Import Str_Model Str_Proofs Path_Model Panic_Model Panic_Spec Panic_Proofs Dir_Model Dir_Spec Dir_Proofs.
Import ListNotations.
Local Open Scope list_scope.
Local Notation length := List.length.

(** A server with two drives and nothing on them but its directories. *)
Definition drive1 : str := s2l "/mnt/a"%string.
Definition drive2 : str := s2l "/mnt/b"%string.
Definition empty_server : dserver :=
  DServer [drive1; drive2] (s2l "/objects"%string) (s2l "obj-1"%string) (fun _ => None)
    (fun p => str_eqb p (s2l "/mnt/a/objects/obj-1_store"%string) || str_eqb p (s2l "/mnt/b/objects/obj-1_store"%string) ||
              str_eqb p (s2l "/mnt/a/objects"%string) || str_eqb p (s2l "/mnt/b/objects"%string))
    (fun _ => None) (fun _ => None).
Definition some_piece : str := s2l "2cf24dba.0"%string.
Definition some_temp : str := temp_prefix ++ s2l "0dd2e0a5"%string.

Local Ltac elem := repeat split; try discriminate; intros K; vm_compute in K; repeat destruct K as [K|K]; try discriminate K; exact K.

Lemma some_piece_element : element some_piece.
Proof. elem. Qed.
Lemma some_temp_element : element some_temp.
Proof. elem. Qed.
Lemma empty_sid : ~ In "/"%char (ds_sid empty_server).
Proof. intros K; vm_compute in K; repeat destruct K as [K|K]; try discriminate K; exact K. Qed.

(** ** C155: what a data server stores lies in its storage directory, one file per name

    In full: whatever name a request has, the file it reads, writes or removes is that entry of
    the storage directory of one of the drives.  It holds for names that name an entry of a
    directory; it fails for the two dots and for names with slashes, which gRPC calls may have. *)

(** Paths from the root are cleaned to elements only, and stay as they are. *)
Theorem C155_clean : forall p, rooted p = true ->
  (exists es, canonical (clean p) es) /\ clean (clean p) = clean p.
Proof. intros p R. split; [exact (clean_canonical p R)|exact (clean_again p R)]. Qed.
Print Assumptions C155_clean.

Example C155_clean_case : clean (s2l "/mnt//a/./b/../../../../etc/"%string) = s2l "/etc"%string.
Proof. vm_compute. reflexivity. Qed.

(** The file of a name is the entry of that name in the directory of the drive. *)
(** Partial.  Full statement: Whatever name a request to a data server has (PUT/GET/DELETE
    /objects/:name over HTTP, FileName of ReceiveData over gRPC), the file read, written or removed
    is the entry of exactly that name in the storage directory of one of the server's drives;
    different names are different files, and a name is looked for where it was written.  It fails in
    general: [C155_dots_refuted], [C155_migration_refuted].  Refuted: PUT of '.' or '..' answers
    success and stores nothing; a FileName with slashes over gRPC reaches every file of the machine. *)
Theorem C155_child_partial : forall s mp name, rooted mp = true -> ~ In "/"%char (ds_sid s) -> element name ->
  object_path s mp name = home s mp ++ "/"%char :: name.
Proof. intros s mp name R N H. exact (object_child s mp R N name H). Qed.
Print Assumptions C155_child_partial.

Example C155_child_case : object_path empty_server drive1 some_piece = s2l "/mnt/a/objects/obj-1_store/2cf24dba.0"%string.
Proof. vm_compute. reflexivity. Qed.

(** Different names, different files. *)
Theorem C155_distinct : forall s mp n m, rooted mp = true -> ~ In "/"%char (ds_sid s) -> element n -> element m ->
  object_path s mp n = object_path s mp m -> n = m.
Proof.
  intros s mp n m R N Hn Hm. rewrite !object_child by assumption. intros E. apply app_inv_head in E. injection E as E. exact E.
Qed.
Print Assumptions C155_distinct.

(** Where a name is looked for is where it is written. *)
Theorem C155_found : forall s mp name, rooted mp = true -> ~ In "/"%char (ds_sid s) -> element name ->
  join_path [mp; join_path [store_dir (ds_storage s) (ds_sid s); name]] = object_path s mp name.
Proof. intros s mp name R N H. exact (found_path s mp R N name H). Qed.
Print Assumptions C155_found.

Example C155_found_case : rooted drive2 = true /\ ~ In "/"%char (ds_sid empty_server) /\ element some_piece.
Proof. split; [reflexivity|]. split; [exact empty_sid|exact some_piece_element]. Qed.

(** The drives a request may write to, and what the index may say about a name. *)
Definition in_homes (s : dserver) (mp name p : str) : Prop := exists m, In m (mp :: ds_mps s) /\ p = home s m ++ "/"%char :: name.
Definition index_in (s : dserver) (mp name : str) : Prop :=
  forall p, path_last (ds_index s name) = Some p -> in_homes s mp name p.

Local Lemma find_real_in s mp name p s1 : Forall (fun m => rooted m = true) (mp :: ds_mps s) -> ~ In "/"%char (ds_sid s) ->
  element name -> index_in s mp name -> find_real s name = (Some p, s1) -> in_homes s mp name p.
Proof.
  intros F N He I E. unfold find_real in E. destruct (path_last (ds_index s name)) as [q|] eqn:L.
  - injection E as <- <-. exact (I q L).
  - destruct (find_mount s (ds_mps s) _) as [q|] eqn:M; [|discriminate E]. injection E as <- <-.
    apply find_mount_in in M as (_ & m & Im & ->). exists m. split; [right; exact Im|]. rewrite Forall_forall in F.
    assert (Rm : rooted m = true) by (apply F; right; exact Im). rewrite found_path, object_child by assumption. reflexivity.
Qed.

Local Lemma object_path_kept s s1 mp name : ds_storage s1 = ds_storage s -> ds_sid s1 = ds_sid s -> object_path s1 mp name = object_path s mp name.
Proof. intros A B. unfold object_path. rewrite A, B. reflexivity. Qed.

Local Lemma changed {A} (f : str -> A) k v p : set_key f k v p <> f p -> p = k.
Proof. intros H. destruct (str_eqb_spec p k) as [|n]; [assumption|]. rewrite set_key_other in H by exact n. congruence. Qed.

(** Storing, removing and taking over a file of such a name change this file only. *)
(** Partial; the full statement is at [C155_child_partial]. *)
Theorem C155_put_only_partial : forall s mp name body p, Forall (fun m => rooted m = true) (mp :: ds_mps s) ->
  ~ In "/"%char (ds_sid s) -> element name ->
  ds_fs (snd (put s mp name body)) p <> ds_fs s p -> p = home s mp ++ "/"%char :: name.
Proof.
  intros s mp name body p F N He H. assert (R : rooted mp = true) by (inversion F; assumption). unfold put in H.
  destruct (exist s name) as [[|] s1] eqn:E; pose proof (exist_fs _ _ _ _ E) as (A & B & C & D & G); cbn [snd] in H.
  - rewrite A in H. congruence.
  - destruct (ds_dirs s1 (object_path s1 mp name)); cbn [snd] in H; [rewrite A in H; congruence|].
    cbn [ds_fs with_cached with_cell with_file] in H. rewrite A in H. apply changed in H. rewrite H, (object_path_kept s s1) by assumption.
    exact (object_child s mp R N name He).
Qed.
Print Assumptions C155_put_only_partial.

(** Partial; the full statement is at [C155_child_partial]. *)
Theorem C155_delete_only_partial : forall s mp name p, Forall (fun m => rooted m = true) (mp :: ds_mps s) ->
  ~ In "/"%char (ds_sid s) -> element name ->
  ds_index s name = None \/ (exists q, path_last (ds_index s name) = Some q /\ in_homes s mp name q) ->
  ds_fs (snd (delete s name)) p <> ds_fs s p -> in_homes s mp name p.
Proof.
  intros s mp name p F N He I H. unfold delete in H. set (s0 := with_cached s name None) in H.
  assert (C0 : ds_cache s0 name = None) by (unfold s0; cbn [ds_cache with_cached]; apply set_key_same).
  destruct (exist s0 name) as [[|] s1] eqn:E; pose proof (exist_fs _ _ _ _ E) as (A & B & C & D & G); cbn [snd] in H;
    [|rewrite A in H; unfold s0 in H; cbn [ds_fs with_cached] in H; congruence].
  destruct (find_real s1 name) as [[q|] s2] eqn:Q; pose proof (find_real_fs _ _ _ _ Q) as (A2 & _);
    [|cbn [snd ds_fs with_cached] in H; rewrite A2, A in H; unfold s0 in H; cbn [ds_fs with_cached] in H; congruence].
  destruct (ds_dirs s2 q); cbn [snd ds_fs with_cached with_cell with_file] in H;
    [rewrite A2, A in H; unfold s0 in H; cbn [ds_fs with_cached] in H; congruence|].
  rewrite A2, A in H. change (ds_fs s0) with (ds_fs s) in H. apply changed in H. subst p. clear A2.
  assert (S : (path_last (ds_index s1 name) = None /\ in_homes s mp name q) \/ ds_index s1 name = ds_index s name).
  { unfold exist in E. rewrite C0 in E. destruct (ds_cache s0 (locate_prefix ++ name)); [injection E as <-; right; reflexivity|].
    unfold find_real in E. destruct I as [I|(w & I & Hw)].
    - change (ds_index s0 name) with (ds_index s name) in E. rewrite I in E. cbn [path_last] in E.
      destruct (find_mount s0 (ds_mps s0) _) as [z|] eqn:M; [|discriminate E].
      destruct (there _ z); [|discriminate E].
      assert (S1 : s1 = with_cached (with_cell s0 name (path_put None z)) (locate_prefix ++ name) (Some [])) by congruence. subst s1. clear E. left.
      assert (L : path_last (ds_index (with_cached (with_cell s0 name (path_put None z)) (locate_prefix ++ name) (Some [])) name) = None).
      { cbn [ds_index with_cached with_cell]. rewrite set_key_same. apply path_last_first. }
      split; [exact L|]. unfold find_real in Q. rewrite L in Q. destruct (find_mount _ _ _) as [z'|] eqn:M2 in Q; [|discriminate Q].
      injection Q as <- _. apply find_mount_in in M2 as (_ & m & Im & ->). exists m. split; [right; exact Im|].
      rewrite Forall_forall in F. assert (Rm : rooted m = true) by (apply F; right; exact Im).
      cbn [ds_storage ds_sid with_cached with_cell]. unfold s0. cbn [ds_storage ds_sid with_cached].
      rewrite found_path, object_child by assumption. reflexivity.
    - change (ds_index s0 name) with (ds_index s name) in E. rewrite I in E. destruct (there s0 w); [|discriminate E].
      injection E as <-. right. reflexivity. }
  destruct S as [(_ & S)|S]; [exact S|]. unfold find_real in Q. rewrite S in Q. destruct I as [I|(w & I & Hw)].
  - rewrite I in Q. cbn [path_last] in Q. destruct (find_mount _ _ _) as [z'|] eqn:M2 in Q; [|discriminate Q].
    injection Q as <- _. apply find_mount_in in M2 as (_ & m & Im & ->). rewrite C in Im. exists m. split; [right; exact Im|].
    rewrite Forall_forall in F. assert (Rm : rooted m = true) by (apply F; right; exact Im).
    rewrite D, G. unfold s0. cbn [ds_storage ds_sid with_cached]. rewrite found_path, object_child by assumption. reflexivity.
  - rewrite I in Q. injection Q as <- _. exact Hw.
Qed.
Print Assumptions C155_delete_only_partial.

(** Partial; the full statement is at [C155_child_partial]. *)
Theorem C155_receive_only_partial : forall s mp name size d rest p, Forall (fun m => rooted m = true) (mp :: ds_mps s) ->
  ~ In "/"%char (ds_sid s) -> element name -> index_in s mp name ->
  ds_fs (snd (receive s mp ((name, size, d) :: rest))) p <> ds_fs s p -> in_homes s mp name p.
Proof.
  intros s mp name size d rest p F N He I H. assert (R : rooted mp = true) by (inversion F; assumption).
  unfold receive in H. destruct name as [|c0 name0] eqn:En; [cbn [snd] in H; congruence|]. rewrite <- En in *. clear En.
  assert (K : forall q s1, (match find_real s name with
                  | (Some p, s1) => (p, s1)
                  | (None, s1) => let p := object_path s1 mp name in (p, with_cell s1 name (path_put (ds_index s1 name) p))
                  end) = (q, s1) -> in_homes s mp name q /\ ds_fs s1 = ds_fs s).
  { intros q s1 E. destruct (find_real s name) as [[z|] s2] eqn:Q; pose proof (find_real_fs _ _ _ _ Q) as (A & _ & _ & D & G & _).
    - injection E as <- <-. split; [exact (find_real_in s mp name z s2 F N He I Q)|exact A].
    - injection E as <- <-. split; [|exact A]. exists mp. split; [left; reflexivity|].
      rewrite (object_path_kept s s2) by assumption. exact (object_child s mp R N name He). }
  unfold open_file in H. destruct (match find_real s name with
                  | (Some p, s1) => (p, s1)
                  | (None, s1) => let p := object_path s1 mp name in (p, with_cell s1 name (path_put (ds_index s1 name) p))
                  end) as [q s1] eqn:E. destruct (K q s1 eq_refl) as (Hq & A).
  destruct (ds_dirs s1 q); [cbn [snd] in H; rewrite A in H; congruence|].
  assert (Z : forall x, ds_fs (with_file (with_file s1 q (Some [])) q x) p <> ds_fs s p -> in_homes s mp name p).
  { intros x Hx. cbn [ds_fs with_file] in Hx. rewrite A in Hx. destruct (str_eqb_spec p q) as [->|n]; [exact Hq|].
    rewrite !set_key_other in Hx by exact n. congruence. }
  destruct (ds_fs s1 q) as [c|]; [destruct (Z.of_nat (length c) =? size)%Z|]; cbn [snd] in H; try (rewrite A in H; congruence); exact (Z _ H).
Qed.
Print Assumptions C155_receive_only_partial.

Example C155_only_case :
  Forall (fun m => rooted m = true) (drive1 :: ds_mps empty_server) /\ index_in empty_server drive1 some_piece /\
  let s1 := snd (put empty_server drive1 some_piece (s2l "hello"%string)) in
  let s2 := snd (receive empty_server drive2 [(some_piece, 5%Z, s2l "hel"%string); (some_piece, 5%Z, s2l "lo"%string)]) in
  get s1 some_piece = Some (s2l "hello"%string) /\ get (snd (delete s1 some_piece)) some_piece = None /\
  ds_fs s2 (s2l "/mnt/b/objects/obj-1_store/2cf24dba.0"%string) = Some (s2l "hello"%string).
Proof.
  split; [repeat constructor|]. split; [intros p E; discriminate E|]. vm_compute. repeat split; reflexivity.
Qed.

(** Success of a stream means that the file of the name, the one found or the one on the drive chosen,
    holds the data sent, unless it had the size told already. *)
Theorem C155_received : forall s mp name size d rest,
  fst (receive s mp ((name, size, d) :: rest)) = true ->
  let s' := snd (receive s mp ((name, size, d) :: rest)) in
  name <> [] /\
  exists p c, p = match fst (find_real s name) with Some q => q | None => object_path s mp name end /\
    ds_fs s' p = Some c /\ ds_dirs s' p = false /\
    (c = d ++ List.concat (map snd rest) \/ (ds_fs s p = Some c /\ Z.of_nat (length c) = size)).
Proof.
  intros s mp name size d rest. unfold receive. destruct name as [|c0 name0] eqn:En; [discriminate|].
  assert (Ne : name <> []) by (rewrite En; discriminate). rewrite <- En. clear En c0 name0.
  unfold open_file. set (o := match find_real s name with (Some p, s1) => (p, s1) | (None, s1) => _ end).
  assert (K : ds_fs (snd o) = ds_fs s /\ fst o = match fst (find_real s name) with Some q => q | None => object_path s mp name end).
  { unfold o. destruct (find_real s name) as [[q|] s1] eqn:Q; pose proof (find_real_fs _ _ _ _ Q) as (A & _ & _ & B & C & _); cbn [fst snd].
    - split; [exact A|reflexivity].
    - split; [exact A|]. unfold object_path. rewrite B, C. reflexivity. }
  destruct o as [p s1]. cbn [fst snd] in K. destruct K as (K & Kp). destruct (ds_dirs s1 p) eqn:D; [discriminate|].
  assert (W : forall v, ds_fs (with_file s1 p (Some v)) p = Some v) by (intros v; cbn [ds_fs with_file]; apply set_key_same).
  assert (New : let s' := with_file (with_file s1 p (Some [])) p (Some (content (with_file s1 p (Some [])) p ++ List.concat (map snd ((name, size, d) :: rest)))) in
    name <> [] /\ exists p c, p = match fst (find_real s name) with Some q => q | None => object_path s mp name end /\
      ds_fs s' p = Some c /\ ds_dirs s' p = false /\
      (c = d ++ List.concat (map snd rest) \/ (ds_fs s p = Some c /\ Z.of_nat (length c) = size))).
  { intros s'. split; [exact Ne|]. exists p, (d ++ List.concat (map snd rest)). split; [exact Kp|]. split; [|split; [exact D|left; reflexivity]].
    unfold s', content. cbn [ds_fs with_file]. rewrite !set_key_same. reflexivity. }
  destruct (ds_fs s1 p) as [c|] eqn:F.
  - destruct (Z.of_nat (length c) =? size)%Z eqn:L; cbn [fst snd]; intros _.
    + split; [exact Ne|]. exists p, c. split; [exact Kp|]. split; [exact F|]. split; [exact D|]. right. split; [rewrite <- K; exact F|apply Z.eqb_eq; exact L].
    + exact New.
  - cbn [fst snd]. intros _. exact New.
Qed.
Print Assumptions C155_received.

Example C155_received_case :
  fst (receive empty_server drive2 [(some_piece, 5%Z, s2l "hel"%string); (some_piece, 5%Z, s2l "lo"%string)]) = true /\
  fst (receive empty_server drive2 [([], 5%Z, s2l "hello"%string)]) = false /\
  fst (receive empty_server drive1 [(dots, 5%Z, s2l "hello"%string)]) = false.
Proof. vm_compute. repeat split; reflexivity. Qed.

(** What is sent to an upload is appended to its own file; nothing else changes. *)
Theorem C155_appended : forall s mp id data,
  let r := patch s mp id data in
  (fst r = 200%Z <-> ds_cache s id <> None) /\ (fst r <> 200%Z -> snd r = s) /\
  (fst r = 200%Z -> forall p, ds_fs (snd r) p =
     if str_eqb p (temp_path s mp id) then Some (match ds_fs s p with Some old => old | None => [] end ++ data) else ds_fs s p).
Proof.
  intros s mp id data. cbv zeta. unfold patch. destruct (ds_cache s id) as [rec|]; cbn [fst snd].
  - split; [split; [intros _ H; discriminate H|reflexivity]|]. split; [congruence|]. intros _ p. cbn [ds_fs with_file].
    destruct (str_eqb_spec p (temp_path s mp id)) as [->|H]; [rewrite set_key_same; reflexivity|apply set_key_other; exact H].
  - split; [split; [discriminate|congruence]|]. split; [reflexivity|discriminate].
Qed.
Print Assumptions C155_appended.

Example C155_appended_case :
  let s1 := snd (patch (post empty_server some_temp []) drive1 some_temp (s2l "hel"%string)) in
  let s2 := snd (patch s1 drive1 some_temp (s2l "lo"%string)) in
  ds_fs s2 (temp_path empty_server drive1 some_temp) = Some (s2l "hello"%string).
Proof. vm_compute. reflexivity. Qed.


(** Names of requests have no slash, but may be a dot or two, which in a path are no entry: such a
    name is there already, so storing under it is answered with success and stores nothing. *)
Theorem C155_dots_refuted : forall s mp drive rest name body, ds_mps s = drive :: rest -> name = dot \/ name = dots ->
  ds_index s name = None -> ds_cache s name = None ->
  ds_dirs s (join_path [drive; join_path [store_dir (ds_storage s) (ds_sid s); name]]) = true ->
  segment name /\ fst (put s mp name body) = true /\ ds_fs (snd (put s mp name body)) = ds_fs s.
Proof.
  intros s mp drive rest name body M D I C T. split; [destruct D as [->| ->]; elem|]. unfold put.
  assert (E : fst (exist s name) = true).
  { unfold exist. destruct (ds_cache s (locate_prefix ++ name)); [reflexivity|]. rewrite C. unfold find_real. rewrite I. cbn [path_last].
    rewrite M. cbn [find_mount]. unfold there at 1. rewrite T. cbn [orb]. unfold there. cbn [ds_dirs with_cell]. rewrite T. reflexivity. }
  destruct (exist s name) as [r s1] eqn:X. cbn [fst] in E. subst r. pose proof (exist_fs _ _ _ _ X) as (A & _). split; [reflexivity|exact A].
Qed.
Print Assumptions C155_dots_refuted.

Example C155_dots_case :
  ds_dirs empty_server (join_path [drive1; join_path [store_dir (ds_storage empty_server) (ds_sid empty_server); dots]]) = true /\
  get (snd (put empty_server drive1 dots (s2l "hello"%string))) dots = None.
Proof. vm_compute. split; reflexivity. Qed.

(** A name with slashes leads to every path: over gRPC any file of the machine that has another size
    than told is replaced by the data sent, and success is answered. *)
Theorem C155_migration_refuted : forall s mp target ts, rooted mp = true -> ~ In "/"%char (ds_sid s) ->
  canonical target ts -> ts <> [] -> ds_dirs s target = false ->
  exists name, name <> [] /\ object_path s mp name = target /\
    (fst (find_real s name) = None -> forall data size,
       (forall old, ds_fs s target = Some old -> Z.of_nat (length old) <> size) ->
       fst (receive s mp [(name, size, data)]) = true /\
       ds_fs (snd (receive s mp [(name, size, data)])) target = Some data).
Proof.
  intros s mp target ts R N C Ne D. destruct (escape s mp R N target ts C Ne) as (name & Nn & E). exists name.
  split; [exact Nn|]. split; [exact E|]. intros Fr data size Old. unfold receive. destruct name as [|c0 n0] eqn:En; [congruence|].
  rewrite <- En in *. clear En. unfold open_file. destruct (find_real s name) as [[q|] s1] eqn:Q; [discriminate Fr|].
  pose proof (find_real_fs _ _ _ _ Q) as (A & B & _ & G & H & _). rewrite (object_path_kept s s1) by assumption. rewrite E.
  cbn [ds_dirs with_cell]. rewrite B, D. cbn [ds_fs with_cell]. rewrite A. cbn [map snd List.concat]. rewrite app_nil_r.
  assert (Z : forall s2, (fst (true, with_file (with_file s2 target (Some [])) target
       (Some (content (with_file s2 target (Some [])) target ++ data))) = true /\
     ds_fs (snd (true, with_file (with_file s2 target (Some [])) target
       (Some (content (with_file s2 target (Some [])) target ++ data)))) target = Some data)).
  { intros s2. split; [reflexivity|]. cbn [snd ds_fs with_file]. rewrite set_key_same. unfold content. cbn [ds_fs with_file].
    rewrite set_key_same. reflexivity. }
  destruct (ds_fs s target) as [c|] eqn:Fs.
  - specialize (Old c eq_refl). destruct (Z.eqb_spec (Z.of_nat (length c)) size) as [Eq|_]; [congruence|]. apply Z.
  - apply Z.
Qed.
Print Assumptions C155_migration_refuted.

Example C155_migration_case :
  let s := with_file empty_server (s2l "/etc/passwd"%string) (Some (s2l "root"%string)) in
  let name := s2l "../../../../etc/passwd"%string in
  canonical (s2l "/etc/passwd"%string) [s2l "etc"%string; s2l "passwd"%string] /\ fst (find_real s name) = None /\
  fst (receive s drive1 [(name, 1%Z, s2l "x"%string)]) = true /\
  ds_fs (snd (receive s drive1 [(name, 1%Z, s2l "x"%string)])) (s2l "/etc/passwd"%string) = Some (s2l "x"%string).
Proof.
  cbv zeta. split; [split; [reflexivity|]; constructor; [elem|constructor; [elem|constructor]]|]. vm_compute. repeat split; reflexivity.
Qed.

(** ** C156: unfinished uploads are apart from objects

    In full: no request about an object reads or changes an unfinished upload, and none finds a
    mark of the cache.  Uploads lie in the directory of the objects, and the cache has records,
    marks and contents under one kind of key, so only the names keep them apart: those of pieces
    do; other names do not. *)

Local Lemma hex_not c : hex c -> c <> "T"%char /\ c <> "L"%char /\ c <> "/"%char /\ c <> "."%char.
Proof. intros H. repeat split; intros ->; vm_compute in H; repeat destruct H as [H|H]; try discriminate H; exact H. Qed.

Local Lemma piece_head h i : good_hash h -> exists c r, piece h i = c :: r /\ hex c.
Proof.
  intros (N & F). destruct h as [|c h]; [congruence|]. exists c. eexists. split; [reflexivity|]. inversion F; assumption.
Qed.

Local Lemma piece_element h i : good_hash h -> element (piece h i).
Proof.
  intros G. destruct (piece_head h i G) as (c & r & E & H). destruct (hex_not c H) as (_ & _ & _ & Nd). rewrite E. repeat split.
  - discriminate.
  - intros K. injection K as K _. congruence.
  - intros K. injection K as K _. congruence.
  - rewrite <- E. unfold piece. intros K. apply in_app_or in K as [K|[K|K]]; [|discriminate K|].
    + destruct G as (_ & F). rewrite Forall_forall in F. destruct (hex_not _ (F _ K)) as (_ & _ & X & _). congruence.
    + revert K. apply print_N_notin. reflexivity.
Qed.

(** Partial.  Full statement: No request about an object on a data server reads, changes or removes
    an unfinished upload, and no object name reads one of the marks the server keeps in its cache.
    It fails in general: [C156_read_refuted], [C156_delete_refuted], [C156_mark_refuted].  Refuted
    for other names: the record and the bytes of an unfinished upload are read and removed as an
    object, a mark is read as an empty object. *)
Theorem C156_apart_partial : forall s mp hash i u, rooted mp = true -> ~ In "/"%char (ds_sid s) -> good_hash hash -> ~ In "/"%char u ->
  object_path s mp (piece hash i) <> temp_path s mp (temp_prefix ++ u) /\
  (forall m, piece hash i <> locate_prefix ++ m) /\ (forall m, temp_prefix ++ u <> locate_prefix ++ m) /\
  (forall m, locate_prefix ++ piece hash i <> temp_prefix ++ m).
Proof.
  intros s mp hash i u R N G U. destruct (piece_head hash i G) as (c & r & E & H). destruct (hex_not c H) as (H1 & H2 & H3 & H4).
  split; [|split; [|split]].
  - change (temp_path s mp (temp_prefix ++ u)) with (object_path s mp (temp_prefix ++ u)). intros K.
    apply (C155_distinct s mp) in K; try assumption; [|exact (piece_element hash i G)|].
    + rewrite E in K. injection K as K _. congruence.
    + repeat split; try discriminate. intros X. apply in_app_or in X as [X|X]; [|exact (U X)]. vm_compute in X.
      repeat destruct X as [X|X]; try discriminate X. exact X.
  - intros m K. rewrite E in K. injection K as K _. congruence.
  - intros m K. discriminate K.
  - intros m K. discriminate K.
Qed.
Print Assumptions C156_apart_partial.

Example C156_apart_case : good_hash (s2l "2cf24dba"%string) /\ piece (s2l "2cf24dba"%string) 0 = some_piece.
Proof.
  split; [|reflexivity]. split; [discriminate|]. vm_compute.
  repeat (constructor; [repeat (first [left; reflexivity|right])|]). constructor.
Qed.

Local Lemma patched s mp id rec data : there s (temp_path s mp id) = false ->
  patch (post s id rec) mp id data = (200%Z, with_file (post s id rec) (temp_path s mp id) (Some data)).
Proof.
  intros T. unfold patch. assert (C : ds_cache (post s id rec) id = Some rec) by (unfold post; cbn [ds_cache with_cached]; apply set_key_same).
  rewrite C. change (temp_path (post s id rec) mp id) with (temp_path s mp id). unfold content. change (ds_fs (post s id rec)) with (ds_fs s).
  unfold there in T. apply orb_false_iff in T as (_ & T). destruct (ds_fs s (temp_path s mp id)); [discriminate T|reflexivity].
Qed.

(** The record of an upload is read under the name of an object, and after it has expired, the bytes
    come so far. *)
Theorem C156_read_refuted : forall s mp id rec data, rooted mp = true -> ~ In "/"%char (ds_sid s) -> element id ->
  ds_mps s = [mp] -> ds_index s id = None -> ds_cache s (locate_prefix ++ id) = None -> locate_prefix ++ id <> id ->
  there s (temp_path s mp id) = false ->
  get (post s id rec) id = Some rec /\
  (let s1 := snd (patch (post s id rec) mp id data) in get (with_cached s1 id None) id = Some data).
Proof.
  intros s mp id rec data R N He M I C Nk T. split; [unfold get, post; cbn [ds_cache with_cached]; rewrite set_key_same; reflexivity|].
  cbv zeta. rewrite patched by exact T. cbn [snd]. set (s2 := with_cached _ id None).
  assert (P : join_path [mp; join_path [store_dir (ds_storage s2) (ds_sid s2); id]] = temp_path s mp id).
  { change (temp_path s mp id) with (object_path s mp id). change (ds_storage s2) with (ds_storage s). change (ds_sid s2) with (ds_sid s).
    exact (found_path s mp R N id He). }
  assert (Fs : ds_fs s2 (temp_path s mp id) = Some data) by (unfold s2; cbn [ds_fs with_cached with_file]; apply set_key_same).
  assert (C1 : ds_cache s2 id = None) by (unfold s2; cbn [ds_cache with_cached]; apply set_key_same).
  assert (C2 : ds_cache s2 (locate_prefix ++ id) = None).
  { unfold s2, post. cbn [ds_cache with_cached with_file]. rewrite !set_key_other by exact Nk. exact C. }
  assert (T2 : forall s3, ds_fs s3 = ds_fs s2 -> there s3 (temp_path s mp id) = true)
    by (intros s3 X; unfold there; rewrite X, Fs; apply orb_true_r).
  unfold get, exist. rewrite C1, C2. unfold find_real at 1. change (ds_index s2 id) with (ds_index s id). rewrite I. cbn [path_last].
  change (ds_mps s2) with (ds_mps s). rewrite M. cbn [find_mount]. rewrite P, T2 by reflexivity. cbn [fst]. rewrite T2 by reflexivity.
  unfold find_real. cbn [ds_index with_cached with_cell]. rewrite set_key_same, path_last_first.
  cbn [ds_mps with_cached with_cell]. change (ds_mps s2) with (ds_mps s). rewrite M. cbn [find_mount].
  cbn [ds_storage ds_sid with_cached with_cell]. rewrite P, T2 by reflexivity. cbn [fst ds_fs with_cached with_cell]. exact Fs.
Qed.
Print Assumptions C156_read_refuted.

(** Removing the object of that name removes the upload: it cannot be carried on, and its bytes
    are gone. *)
Theorem C156_delete_refuted : forall s mp id rec data more, rooted mp = true -> ~ In "/"%char (ds_sid s) -> element id ->
  ds_mps s = [mp] -> ds_index s id = None -> ds_cache s (locate_prefix ++ id) = None -> locate_prefix ++ id <> id ->
  there s (temp_path s mp id) = false ->
  let s1 := snd (patch (post s id rec) mp id data) in
  ds_fs s1 (temp_path s mp id) = Some data /\
  fst (delete s1 id) = true /\ ds_fs (snd (delete s1 id)) (temp_path s mp id) = None /\
  fst (patch (snd (delete s1 id)) mp id more) = 404%Z.
Proof.
  intros s mp id rec data more R N He M I C Nk T s1.
  assert (D : ds_dirs s (temp_path s mp id) = false) by (unfold there in T; apply orb_false_iff in T as (T & _); exact T).
  assert (Fs : ds_fs s1 (temp_path s mp id) = Some data).
  { unfold s1. rewrite patched by exact T. cbn [snd ds_fs with_file]. apply set_key_same. }
  split; [exact Fs|].
  assert (X : ds_index s1 id = None /\ ds_mps s1 = [mp] /\ ds_storage s1 = ds_storage s /\ ds_sid s1 = ds_sid s /\ ds_dirs s1 = ds_dirs s /\
    ds_cache s1 (locate_prefix ++ id) = None).
  { unfold s1. rewrite patched by exact T. unfold post.
    cbn [snd ds_index ds_mps ds_storage ds_sid ds_dirs ds_cache with_file with_cached]. rewrite set_key_other by exact Nk. repeat split; assumption. }
  destruct X as (XI & XM & XS & XN & XD & XC). clearbody s1. unfold delete.
  set (s2 := with_cached s1 id None). set (t := temp_path s mp id) in *.
  assert (P : join_path [mp; join_path [store_dir (ds_storage s1) (ds_sid s1); id]] = t).
  { rewrite XS, XN. exact (found_path s mp R N id He). }
  assert (T2 : forall s3, ds_fs s3 = ds_fs s1 -> there s3 t = true) by (intros s3 Y; unfold there; rewrite Y, Fs; apply orb_true_r).
  assert (E : exist s2 id = (true, with_cached (with_cell s2 id (path_put None t)) (locate_prefix ++ id) (Some []))).
  { assert (C1 : ds_cache s2 id = None) by (unfold s2; cbn [ds_cache with_cached]; apply set_key_same).
    assert (C2 : ds_cache s2 (locate_prefix ++ id) = None) by (unfold s2; cbn [ds_cache with_cached]; rewrite set_key_other by exact Nk; exact XC).
    unfold exist. rewrite C1, C2.
    unfold find_real. change (ds_index s2 id) with (ds_index s1 id). rewrite XI. cbn [path_last]. change (ds_mps s2) with (ds_mps s1). rewrite XM.
    cbn [find_mount]. change (ds_storage s2) with (ds_storage s1). change (ds_sid s2) with (ds_sid s1). rewrite P, !T2 by reflexivity. reflexivity. }
  rewrite E. set (s3 := with_cached (with_cell s2 id (path_put None t)) (locate_prefix ++ id) (Some [])).
  assert (Q : find_real s3 id = (Some t, with_cell s3 id (path_put (path_put None t) t))).
  { unfold find_real. assert (Y : ds_index s3 id = path_put None t) by (unfold s3; cbn [ds_index with_cached with_cell]; apply set_key_same).
    rewrite Y, path_last_first. change (ds_mps s3) with (ds_mps s1). rewrite XM. cbn [find_mount].
    change (ds_storage s3) with (ds_storage s1). change (ds_sid s3) with (ds_sid s1). rewrite P, T2 by reflexivity. reflexivity. }
  rewrite Q. cbn [ds_dirs with_cell]. change (ds_dirs s3) with (ds_dirs s1). rewrite XD, D. cbn [fst snd]. split; [reflexivity|].
  cbn [ds_fs with_cached with_cell with_file]. rewrite set_key_same. split; [reflexivity|].
  unfold patch. cbn [ds_cache with_cached with_cell with_file]. rewrite set_key_other by (intros K; apply Nk; symmetry; exact K).
  unfold s3. cbn [ds_cache with_cached with_cell]. rewrite set_key_other by (intros K; apply Nk; symmetry; exact K).
  unfold s2. cbn [ds_cache with_cached]. rewrite set_key_same. reflexivity.
Qed.
Print Assumptions C156_delete_refuted.

Example C156_case :
  let s := DServer [drive1] (s2l "/objects"%string) (s2l "obj-1"%string) (fun _ => None) (fun _ => false) (fun _ => None) (fun _ => None) in
  element some_temp /\ locate_prefix ++ some_temp <> some_temp /\ there s (temp_path s drive1 some_temp) = false.
Proof. cbv zeta. split; [exact some_temp_element|]. split; [discriminate|vm_compute; reflexivity]. Qed.

(** The mark of an object that is there is read as an empty object. *)
Theorem C156_mark_refuted : forall s mp name body, fst (put s mp name body) = true ->
  ds_cache s name = None -> ds_cache s (locate_prefix ++ name) = None ->
  get (snd (put s mp name body)) (locate_prefix ++ name) = Some [].
Proof.
  intros s mp name body H C1 C2. unfold put in *. destruct (exist s name) as [[|] s1] eqn:E.
  - cbn [snd]. unfold exist in E. rewrite C1, C2 in E. destruct (find_real s name) as [[p|] s2]; [|discriminate E].
    destruct (there s2 p); [|discriminate E]. injection E as <-. unfold get. cbn [ds_cache with_cached]. rewrite set_key_same. reflexivity.
  - destruct (ds_dirs s1 (object_path s1 mp name)); [discriminate H|]. cbn [snd]. unfold get. cbn [ds_cache with_cached]. rewrite set_key_same. reflexivity.
Qed.
Print Assumptions C156_mark_refuted.

Example C156_mark_case : fst (put empty_server drive1 some_piece (s2l "hello"%string)) = true.
Proof. vm_compute. reflexivity. Qed.

(** ** C157: a data server that takes over files survives it

    In full: no file that a leaving server sends ends the server that takes it over.  It holds
    for names with a dot; the names of unfinished uploads have none. *)

(** A file is taken over exactly if it is there with the size told, the server is registered and
    more than half of the metadata servers do not fail. *)
Theorem C157_finish : forall s name size known metas fails,
  finish_object s name size known metas fails = FOk <->
  (exists p c, fst (find_real s name) = Some p /\ ds_fs s p = Some c /\ Z.of_nat (length c) = size) /\
  known = true /\ In "."%char name /\ (2 * fails < metas).
Proof.
  intros s name size known metas fails. unfold finish_object. destruct (find_real s name) as [[p|] s1] eqn:Q; cbn [fst].
  - pose proof (find_real_fs _ _ _ _ Q) as (A & _). rewrite A. destruct (ds_fs s p) as [c|] eqn:Fs.
    + destruct (Z.eqb_spec (Z.of_nat (length c)) size) as [Es|Es]; cbn [negb].
      * destruct known; cbn [negb]; [|split; [discriminate|intros (_ & K & _); discriminate K]].
        destruct (last_dot name) as [ab|] eqn:L.
        -- assert (Id : In "."%char name).
           { destruct (in_dec ascii_dec "."%char name) as [i|n]; [exact i|]. apply last_dot_none in n. congruence. }
           assert (Hd : (metas + 1) / 2 <= fails <-> metas <= 2 * fails).
           { pose proof (Nat.div_mod (metas + 1) 2 ltac:(lia)). pose proof (Nat.mod_upper_bound (metas + 1) 2 ltac:(lia)). lia. }
           destruct (Nat.eqb_spec metas 0) as [->|Nm]; [split; [discriminate|intros (_ & _ & _ & K); lia]|].
           destruct (Nat.leb_spec ((metas + 1) / 2) fails) as [Le|Lt].
           ++ split; [discriminate|]. intros (_ & _ & _ & K). apply Hd in Le. lia.
           ++ split; [|reflexivity]. intros _. split; [exists p, c; split; [reflexivity|split; [exact Fs|exact Es]]|]. split; [reflexivity|]. split; [exact Id|lia].
        -- split; [discriminate|]. intros (_ & _ & K & _). apply last_dot_none in L. contradiction.
      * split; [discriminate|]. intros ((p' & c' & [= <-] & K & E') & _). congruence.
    + split; [discriminate|]. intros ((p' & c' & [= <-] & K & _) & _). congruence.
  - split; [discriminate|]. intros ((p' & c' & K & _) & _). discriminate K.
Qed.
Print Assumptions C157_finish.

(** It panics exactly if it is there with the size told, the server is registered and the name has no
    dot; then no request is answered any more. *)
Theorem C157_panic : forall s name size known metas fails,
  finish_object s name size known metas fails = FPanic <->
  (exists p c, fst (find_real s name) = Some p /\ ds_fs s p = Some c /\ Z.of_nat (length c) = size) /\
  known = true /\ ~ In "."%char name.
Proof.
  intros s name size known metas fails. unfold finish_object. destruct (find_real s name) as [[p|] s1] eqn:Q; cbn [fst].
  - pose proof (find_real_fs _ _ _ _ Q) as (A & _). rewrite A. destruct (ds_fs s p) as [c|] eqn:Fs.
    + destruct (Z.eqb_spec (Z.of_nat (length c)) size) as [Es|Es]; cbn [negb].
      * destruct known; cbn [negb]; [|split; [discriminate|intros (_ & K & _); discriminate K]].
        destruct (last_dot name) as [ab|] eqn:L.
        -- split; [destruct (metas =? 0); [|destruct ((metas + 1) / 2 <=? fails)]; discriminate|].
           intros (_ & _ & K). apply last_dot_none in K. congruence.
        -- split; [|reflexivity]. intros _. split; [exists p, c; split; [reflexivity|split; [exact Fs|exact Es]]|].
           split; [reflexivity|]. apply last_dot_none. exact L.
      * split; [discriminate|]. intros ((p' & c' & [= <-] & K & E') & _). congruence.
    + split; [discriminate|]. intros ((p' & c' & [= <-] & K & _) & _). congruence.
  - split; [discriminate|]. intros ((p' & c' & K & _) & _). discriminate K.
Qed.
Print Assumptions C157_panic.

(** Partial.  Full statement: Whatever lies in the storage directory of a leaving data server, the
    server that takes a file over answers the call: with success exactly if the file is there with
    the size told, it is registered and more than half of the metadata servers took the new
    location, and it keeps running.  It fails in general: [C157_leave_refuted].  Refuted: the file
    of an unfinished upload has no dot in its name, is sent by a leaving server and ends every
    registered server that takes it over. *)
Theorem C157_survives_partial : forall s mp name chunks known metas fails sv, In "."%char name -> sv_runs sv = true ->
  let f := take_over s mp name chunks known metas fails in
  f <> FPanic /\ sv_runs (fst (after_finish sv f)) = true.
Proof.
  intros s mp name chunks known metas fails sv Hd Sv f.
  assert (K : f <> FPanic).
  { unfold f, take_over. destruct (receive _ _ _) as [[|] s1]; [|discriminate]. intros K. apply C157_panic in K as (_ & _ & K). contradiction. }
  split; [exact K|]. unfold after_finish, panic_of. destruct f; [| |congruence].
  - cbn [finish]. rewrite Sv. reflexivity.
  - cbn [finish]. rewrite Sv. reflexivity.
Qed.
Print Assumptions C157_survives_partial.

Example C157_case :
  take_over empty_server drive2 some_piece [s2l "hel"%string; s2l "lo"%string] true 3 1 = FOk /\
  take_over empty_server drive2 some_piece [s2l "hel"%string; s2l "lo"%string] true 3 2 = FErr /\
  take_over empty_server drive2 some_temp [s2l "hel"%string; s2l "lo"%string] true 3 0 = FPanic.
Proof. vm_compute. repeat split; reflexivity. Qed.

(** Upload something and do not finish it: the file is among those the leaving server sends.  Every
    registered server that takes it over panics and is gone. *)
Theorem C157_leave_refuted : forall s mp id rec data, data <> [] ->
  walked (snd (patch (post s id rec) mp id data)) mp id = true /\
  (forall r mp' chunks metas fails sv, rooted mp' = true -> ~ In "/"%char (ds_sid r) -> element id -> ~ In "."%char id ->
     In mp' (ds_mps r) -> ds_index r id = None ->
     find_mount r (ds_mps r) (join_path [store_dir (ds_storage r) (ds_sid r); id]) = None ->
     chunks <> [] -> sv_runs sv = true ->
     let f := take_over r mp' id chunks true metas fails in
     f = FPanic /\ sv_runs (fst (after_finish sv f)) = false /\ snd (after_finish sv f) = Gone).
Proof.
  intros s mp id rec data Nd. split.
  - unfold walked, patch, post. cbn [ds_cache with_cached]. rewrite set_key_same. cbn [snd ds_fs with_file].
    change (object_path (with_file _ _ _) mp id) with (temp_path s mp id).
    change (temp_path (with_cached s id (Some rec)) mp id) with (temp_path s mp id). rewrite set_key_same. reflexivity.
  - intros r mp' chunks metas fails sv R N He Ndot Im I M Nc Sv f.
    assert (K : f = FPanic).
    { unfold f, take_over. set (size := Z.of_nat _). destruct chunks as [|d rest]; [congruence|]. cbn [map]. unfold receive.
      destruct id as [|c0 id0] eqn:Ei; [destruct He as (X & _); congruence|]. rewrite <- Ei in *. clear Ei.
      unfold open_file. unfold find_real at 1. rewrite I. cbn [path_last]. rewrite M.
      assert (P : join_path [mp'; join_path [store_dir (ds_storage r) (ds_sid r); id]] = object_path r mp' id) by exact (found_path r mp' R N id He).
      assert (T : there r (object_path r mp' id) = false) by (rewrite <- P; exact (find_mount_none r _ _ mp' M Im)).
      unfold there in T. apply orb_false_iff in T as (T1 & T2). cbv zeta. cbn [ds_dirs with_cell]. rewrite T1. cbn [ds_fs with_cell].
      destruct (ds_fs r (object_path r mp' id)) eqn:Fo; [discriminate T2|].
      apply C157_panic. split; [|split; [reflexivity|exact Ndot]]. exists (object_path r mp' id), (List.concat (d :: rest)).
      set (s' := with_file _ _ _).
      assert (Fs : forall p, ds_fs s' p = set_key (ds_fs r) (object_path r mp' id) (Some (List.concat (d :: rest))) p).
      { intros p. unfold s'. cbn [ds_fs with_file with_cell]. unfold content. cbn [ds_fs with_file with_cell].
        unfold set_key at 1. rewrite (set_key_same _ (object_path r mp' id)). unfold set_key. destruct (str_eqb p (object_path r mp' id)); [|reflexivity].
        f_equal. cbn [map snd app]. f_equal. rewrite map_map. cbn [snd]. rewrite map_id. reflexivity. }
      split; [|split; [rewrite Fs; apply set_key_same|reflexivity]].
      unfold find_real. assert (Y : ds_index s' id = path_put None (object_path r mp' id)).
      { unfold s'. cbn [ds_index with_file with_cell]. rewrite set_key_same, I. reflexivity. }
      rewrite Y, path_last_first. change (ds_mps s') with (ds_mps r). change (ds_storage s') with (ds_storage r). change (ds_sid s') with (ds_sid r).
      rewrite (find_mount_after r (ds_mps r) _ (object_path r mp' id) (List.concat (d :: rest)) mp' M Im P s' eq_refl Fs). reflexivity. }
    split; [exact K|]. rewrite K. unfold after_finish, panic_of. cbn [finish]. rewrite Sv. split; reflexivity.
Qed.
Print Assumptions C157_leave_refuted.

Example C157_leave_case :
  element some_temp /\ ~ In "."%char some_temp /\ In drive2 (ds_mps empty_server) /\
  find_mount empty_server (ds_mps empty_server) (join_path [store_dir (ds_storage empty_server) (ds_sid empty_server); some_temp]) = None.
Proof.
  split; [exact some_temp_element|]. split; [intros K; vm_compute in K; repeat destruct K as [K|K]; try discriminate K; exact K|].
  split; [right; left; reflexivity|vm_compute; reflexivity].
Qed.
