From Verif Require Import Rs_Main Copy_Proofs Net_Model Net_Spec Net_Proofs.
From Coq Require Import NArith.

(** * C174: an upload told as stored is stored whole *)

(** Partial: if no error is overlooked.  The pieces at the data servers are those of the body, and the
    body is what the digest names. *)
(** Partial.  Full statement: When the data of an upload is told as stored, every data server of it
    holds the piece of the body meant for it, whole, the body was not broken off and is that of its
    digest; so reading it back gives the body.  It fails in general: [C174_gap_refuted],
    [C174_copy_refuted].  Refuted: WaitUntilError may find its workers finished before it looks at
    their error, so a block that did not arrive goes unnoticed and the object reads back with other
    bytes and no error. *)
Theorem C174_shards_partial : forall (B : Type) (lib : rs_lib B) c e checksum digest fuel chunks broken f, none_lost e ->
  stream_to (all_shards c) (block_size c) (encode_row lib c) false e checksum digest fuel chunks broken = Some (Stored, f) ->
  broken = false /\ (checksum = true -> digest (concat chunks) = true) /\
  exists sent, upload lib c fuel chunks = Some sent /\ forall i, i < all_shards c -> holds f i (shard_blocks sent i).
Proof.
  intros B lib c e checksum digest fuel chunks broken f NL H.
  destruct (stored_inv _ _ _ _ _ _ _ _ _ _ _ H) as (H1 & H2 & p & P & _ & A). split; [exact H1|]. split; [exact H2|].
  exists (snd (pflush (encode_row lib c) p)). split; [exact (upload_rs lib c fuel chunks p P)|].
  exact (A NL).
Qed.
Print Assumptions C174_shards_partial.

(** Partial; the full statement is at [C174_shards_partial]. *)
Theorem C174_copies_partial : forall (B : Type) n bs (e : env B) checksum digest fuel chunks broken f, none_lost e ->
  stream_to n bs (copy_row n) true e checksum digest fuel chunks broken = Some (Stored, f) ->
  broken = false /\ (checksum = true -> digest (concat chunks) = true) /\
  exists sent, c_upload bs fuel chunks = Some sent /\ concat sent = concat chunks /\ forall i, i < n -> holds f i sent.
Proof.
  intros B n bs e checksum digest fuel chunks broken f NL H.
  destruct (stored_inv _ _ _ _ _ _ _ _ _ _ _ H) as (H1 & H2 & p & P & _ & A). split; [exact H1|]. split; [exact H2|].
  destruct (upload_copy n bs fuel chunks p P) as (sent & U & E). exists sent. split; [exact U|].
  split; [exact (whole_upload bs fuel chunks sent U)|]. intros i L.
  rewrite <- (column_copy n i sent L), <- E. apply (A NL). exact L.
Qed.
Print Assumptions C174_copies_partial.

(** Even if errors are overlooked, the servers that answered everything hold their pieces. *)
Theorem C174_server : forall (B : Type) (lib : rs_lib B) c e checksum digest fuel chunks broken f, concat chunks <> [] ->
  stream_to (all_shards c) (block_size c) (encode_row lib c) false e checksum digest fuel chunks broken = Some (Stored, f) ->
  exists sent, upload lib c fuel chunks = Some sent /\
    forall i, i < all_shards c -> answers e i -> holds f i (shard_blocks sent i).
Proof.
  intros B lib c e checksum digest fuel chunks broken f NE H.
  destruct (stored_inv _ _ _ _ _ _ _ _ _ _ _ H) as (_ & _ & p & P & A & _).
  exists (snd (pflush (encode_row lib c) p)). split; [exact (upload_rs lib c fuel chunks p P)|].
  intros i L An. apply A; [exact L|exact An|]. exact (rows_left _ _ _ _ _ P NE).
Qed.
Print Assumptions C174_server.

Theorem C174_copy_server : forall (B : Type) n bs (e : env B) checksum digest fuel chunks broken f, concat chunks <> [] ->
  stream_to n bs (copy_row n) true e checksum digest fuel chunks broken = Some (Stored, f) ->
  exists sent, c_upload bs fuel chunks = Some sent /\ concat sent = concat chunks /\
    forall i, i < n -> answers e i -> holds f i sent.
Proof.
  intros B n bs e checksum digest fuel chunks broken f NE H.
  destruct (stored_inv _ _ _ _ _ _ _ _ _ _ _ H) as (_ & _ & p & P & A & _).
  destruct (upload_copy n bs fuel chunks p P) as (sent & U & E). exists sent. split; [exact U|].
  split; [exact (whole_upload bs fuel chunks sent U)|]. intros i L An. rewrite <- (column_copy n i sent L), <- E.
  apply A; [exact L|exact An|]. exact (rows_left _ _ _ _ _ P NE).
Qed.
Print Assumptions C174_copy_server.

(** So what is read back is the body: from the files the data servers make of the pieces, with any
    shards missing or failing meanwhile, in blocks of whole pages (C23). *)
(** Partial; the full statement is at [C174_shards_partial]. *)
Theorem C174_reads_partial : forall (B : Type) (zero : B) (lib : rs_lib B) c e checksum digest rf fuel chunks broken f files avail reqs bytes st rws,
  0 < rc_data c -> 0 < rc_bps c -> mds lib (rc_data c) (rc_parity c) ->
  Forall (fun bt => length bt <= fuel) chunks -> rc_bps c mod block = 0 \/ length (concat chunks) <= block_size c ->
  none_lost e ->
  stream_to (all_shards c) (block_size c) (encode_row lib c) false e checksum digest fuel chunks broken = Some (Stored, f) ->
  (forall i, i < all_shards c -> forall l, p_obj (f i) = Some l -> store_blocks zero rf l = Some (files i)) ->
  read_many lib c (open_shards c (length (concat chunks))
    (fun i => fetch (files i) (shard_size c (length (concat chunks)))) avail) reqs [] = (bytes, st, rws) ->
  (exists rest, concat chunks = bytes ++ rest) /\ (st = Eof -> bytes = concat chunks) /\
  (st = Broken -> exists k, rc_parity c < missing (all_shards c) avail k).
Proof.
  intros B zero lib c e checksum digest rf fuel chunks broken f files avail reqs bytes st rws H1 H2 H3 H4 H5 NL H Fi R.
  destruct (C174_shards_partial B lib c e checksum digest fuel chunks broken f NL H) as (_ & _ & sent & U & Ho).
  destruct (end_to_end zero lib c H1 H2 H3 rf chunks fuel avail reqs H4 H5) as (sent' & U' & E).
  rewrite U in U'. injection U' as <-.
  destruct (E files (fun i L => Fi i L _ (proj1 (Ho i L))) bytes st rws R) as [E1 E2].
  split; [exact E1|]. split; [intros ->; apply E2|]. intros ->. destruct E2 as (k & _ & E2). exists k. exact E2.
Qed.
Print Assumptions C174_reads_partial.

(** All requests answered, or one DELETE of them lost. *)
Definition env0 : env N := Env (fun _ => Fine) (fun _ _ => SFine) (fun _ => Fine) (fun _ => Fine) (fun _ => false).
Definition body8 : list (list N) := [[1%N; 2%N; 3%N]; [4%N; 5%N; 6%N; 7%N; 8%N]].
Definition sc21 : rs_config := {| rc_data := 2; rc_parity := 1; rc_bps := 2 |}.
Definition rs_to (e : env N) checksum digest := stream_to 3 4 (encode_row xor_lib sc21) false e checksum digest 9.
Definition copies_to (e : env N) checksum digest := stream_to 2 4 (copy_row 2) true e checksum digest 9.
Definition sees (x : option (told * (nat -> piece N))) (n : nat) : option (told * list (piece N)) :=
  option_map (fun y => (fst y, map (snd y) (seq 0 n))) x.

Example C174_case : none_lost env0 /\ concat body8 <> [] /\
  sees (rs_to env0 true (fun _ => true) body8 false) 3 =
    Some (Stored, [Piece None (Some [[1%N; 2%N]; [5%N; 6%N]]); Piece None (Some [[3%N; 4%N]; [7%N; 8%N]]);
                   Piece None (Some [[2%N; 6%N]; [2%N; 14%N]])]) /\
  sees (copies_to env0 true (fun _ => true) body8 false) 2 =
    Some (Stored, [Piece None (Some [[1%N; 2%N; 3%N; 4%N]; [5%N; 6%N; 7%N; 8%N]]);
                   Piece None (Some [[1%N; 2%N; 3%N; 4%N]; [5%N; 6%N; 7%N; 8%N]])]).
Proof. split; [intros g; reflexivity|]. split; [discriminate|]. split; vm_compute; reflexivity. Qed.
(** The conditions of [C174_reads_partial]: a body of one block. *)
Example C174_reads_case : mds xor_lib 2 1 /\ length (concat [[1%N; 2%N; 3%N]]) <= block_size sc21 /\
  (exists f, rs_to env0 true (fun _ => true) [[1%N; 2%N; 3%N]] false = Some (Stored, f)).
Proof. split; [exact xor_mds|]. split; [cbn; lia|]. eexists. vm_compute. reflexivity. Qed.
(** One server answers nothing but is overlooked: the others hold their pieces. *)
Definition env_deaf : env N :=
  Env (fun i => if i =? 2 then Fails false else Fine) (fun _ i => if i =? 2 then SFails None else SFine) (fun _ => Fine) (fun _ => Fine) (fun _ => true).
Example C174_server_case : answers env_deaf 0 /\ answers env_deaf 1 /\
  sees (rs_to env_deaf true (fun _ => true) body8 false) 3 =
    Some (Stored, [Piece None (Some [[1%N; 2%N]; [5%N; 6%N]]); Piece None (Some [[3%N; 4%N]; [7%N; 8%N]]); Piece None None]).
Proof. split; [repeat split|]. split; [repeat split|]. vm_compute. reflexivity. Qed.

(** The first block does not reach server 0, and the group looks at its finished workers before it
    looks at their error: success is told, the digest is right, and a reader gets other bytes, with
    every shard at hand and no error. *)
Definition env_gap : env N :=
  Env (fun _ => Fine) (fun k i => if (k =? 0) && (i =? 0) then SFails None else SFine) (fun _ => Fine) (fun _ => Fine)
      (fun g => match g with GFlush 0 => true | _ => false end).
Theorem C174_gap_refuted : exists f,
  rs_to env_gap true (fun b => if list_eq_dec N.eq_dec b (concat body8) then true else false) body8 false = Some (Stored, f) /\
  p_obj (f 0) = Some [[5%N; 6%N]] /\
  fst (read_many xor_lib sc21 (open_shards sc21 8 (fun i => match p_obj (f i) with Some l => concat l | None => [] end) (fun _ => Some 9))
    [9; 9; 9] []) = ([5%N; 6%N; 3%N; 4%N; 5%N; 6%N; 7%N; 8%N], Eof).
Proof. eexists. split; [vm_compute; reflexivity|]. split; vm_compute; reflexivity. Qed.
Print Assumptions C174_gap_refuted.

(** The same for a copy: the first copy lacks four bytes in its middle.  And a server that could not
    even begin is overlooked at every step. *)
Theorem C174_copy_refuted :
  (exists f, copies_to env_gap true (fun _ => true) body8 false = Some (Stored, f) /\ p_obj (f 0) = Some [[5%N; 6%N; 7%N; 8%N]]) /\
  (exists f, copies_to (Env (fun i => if i =? 0 then Fails false else Fine) (fun _ _ => SFine) (fun _ => Fine) (fun _ => Fine)
                            (fun g => match g with GCommit => false | _ => true end)) true (fun _ => true) body8 false = Some (Stored, f) /\
    p_obj (f 0) = None).
Proof. split; eexists; (split; [vm_compute; reflexivity|]); vm_compute; reflexivity. Qed.
Print Assumptions C174_copy_refuted.

(** * C175: a failed upload leaves nothing at the data servers *)

(** Unless it is told as stored or unavailable, no piece has become an object, whatever fails. *)
Theorem C175_no_object : forall (B : Type) n bs row skips (e : env B) checksum digest fuel chunks broken t f,
  stream_to n bs row skips e checksum digest fuel chunks broken = Some (t, f) -> t <> Stored -> t <> Unavailable ->
  forall i, p_obj (f i) = None.
Proof. exact @no_objects. Qed.
Print Assumptions C175_no_object.

(** Partial: the uploads refused as invalid or with an internal error, all servers having begun and all
    DELETE requests being done; either no block failed or the body was right. *)
(** Partial.  Full statement: After an upload that is not told as stored no data server that answers
    holds an object or a temporary file of it.  It fails in general: [C175_left_refuted].  Refuted:
    Commit(false) flushes before it removes and gives up if that fails; a failed opening, a failed
    last flush or a failed commit removes nothing at the other servers. *)
Theorem C175_clean_partial : forall (B : Type) n bs row skips (e : env B) checksum digest fuel chunks broken t f,
  stream_to n bs row skips e checksum digest fuel chunks broken = Some (t, f) -> t = Invalid \/ t = Internal ->
  (forall i, i < n -> ev_post e i = Fine) -> (forall i, i < n -> ev_del e i = Fine) ->
  (forall k i, i < n -> ev_patch e k i = SFine) \/ (broken = false /\ (checksum = true -> digest (concat chunks) = true)) ->
  clean f n.
Proof. exact @refused_clean. Qed.
Print Assumptions C175_clean_partial.

Example C175_case :
  sees (copies_to env0 true (fun _ => false) body8 false) 2 = Some (Invalid, [Piece None None; Piece None None]) /\
  sees (copies_to (Env (fun _ => Fine) (fun k i => if (k =? 1) && (i =? 1) then SFails None else SFine) (fun _ => Fine) (fun _ => Fine) (fun _ => false))
          false (fun _ => true) body8 false) 2 = Some (Internal, [Piece None None; Piece None None]) /\
  sees (copies_to env0 false (fun _ => false) body8 true) 2 = Some (Internal, [Piece None None; Piece None None]).
Proof. split; [|split]; vm_compute; reflexivity. Qed.

(** One request fails, all the others are answered, and temporary files stay: when a server cannot
    begin; when the rest of a body with a wrong digest cannot be sent, which is tried before removing;
    when the rest of a right body cannot be sent.  When a server cannot commit, the pieces of the
    others are objects of no version. *)
Definition six : list (list N) := [[1%N; 2%N; 3%N]; [4%N; 5%N; 6%N]].
Theorem C175_left_refuted :
  sees (copies_to (Env (fun i => if i =? 1 then Fails false else Fine) (fun _ _ => SFine) (fun _ => Fine) (fun _ => Fine) (fun _ => false))
          true (fun _ => true) six false) 2 = Some (NotOpened, [Piece (Some []) None; Piece None None]) /\
  sees (copies_to (Env (fun _ => Fine) (fun k i => if (k =? 1) && (i =? 1) then SFails None else SFine) (fun _ => Fine) (fun _ => Fine) (fun _ => false))
          true (fun _ => false) six false) 2 =
    Some (Invalid, [Piece (Some [[1%N; 2%N; 3%N; 4%N]; [5%N; 6%N]]) None; Piece (Some [[1%N; 2%N; 3%N; 4%N]]) None]) /\
  sees (copies_to (Env (fun _ => Fine) (fun k i => if (k =? 1) && (i =? 1) then SFails None else SFine) (fun _ => Fine) (fun _ => Fine) (fun _ => false))
          true (fun _ => true) six false) 2 =
    Some (Unavailable, [Piece (Some [[1%N; 2%N; 3%N; 4%N]; [5%N; 6%N]]) None; Piece (Some [[1%N; 2%N; 3%N; 4%N]]) None]) /\
  sees (copies_to (Env (fun _ => Fine) (fun _ _ => SFine) (fun i => if i =? 1 then Fails false else Fine) (fun _ => Fine) (fun _ => false))
          true (fun _ => true) six false) 2 =
    Some (Unavailable, [Piece None (Some [[1%N; 2%N; 3%N; 4%N]; [5%N; 6%N]]); Piece (Some [[1%N; 2%N; 3%N; 4%N]; [5%N; 6%N]]) None]).
Proof. split; [|split; [|split]]; vm_compute; reflexivity. Qed.
Print Assumptions C175_left_refuted.

(** * C176: the answer to an upload tells what was wrong *)

(** A right body is stored by servers that answer. *)
Theorem C176_stored : forall (B : Type) n bs row skips (e : env B) checksum digest fuel chunks, 0 < bs ->
  (forall i, i < n -> answers e i) -> Forall (fun bt => length bt <= fuel) chunks -> concat chunks <> [] ->
  (checksum = true -> digest (concat chunks) = true) ->
  exists f, stream_to n bs row skips e checksum digest fuel chunks false = Some (Stored, f).
Proof. exact @success. Qed.
Print Assumptions C176_stored.

(** Partial: if every server began and took every block.  A body is called invalid exactly if it broke
    off or is not that of the digest. *)
(** Partial.  Full statement: A right body is stored if the servers answer; a body is called invalid
    only if it broke off or differs from its digest.  It fails in general: [C176_invalid_refuted].
    Refuted: with checksums SHA256IO drops the error of the stream, so a failing data server is told
    as 400 invalid file. *)
Theorem C176_invalid_partial : forall (B : Type) n bs row skips (e : env B) checksum digest fuel chunks broken t f,
  (forall i, i < n -> ev_post e i = Fine) -> (forall k i, i < n -> ev_patch e k i = SFine) ->
  stream_to n bs row skips e checksum digest fuel chunks broken = Some (t, f) ->
  (t = Invalid <-> checksum = true /\ (broken = true \/ digest (concat chunks) = false)) /\
  (t = Internal <-> checksum = false /\ broken = true) /\ t <> NotOpened.
Proof. exact @blame. Qed.
Print Assumptions C176_invalid_partial.

Example C176_case : (forall i, i < 2 -> answers env0 i) /\ Forall (fun bt => length bt <= 9) body8 /\
  (exists f, copies_to env0 true (fun _ => true) body8 false = Some (Stored, f)) /\
  (exists f, copies_to env0 true (fun _ => false) body8 false = Some (Invalid, f)) /\
  (exists f, copies_to env0 true (fun _ => true) body8 true = Some (Invalid, f)) /\
  (exists f, copies_to env0 false (fun _ => true) body8 true = Some (Internal, f)).
Proof.
  split; [intros i _; repeat split|]. split; [repeat constructor; cbn; lia|].
  split; [|split; [|split]]; eexists; vm_compute; reflexivity.
Qed.

(** With checksums a data server that does not take the first block makes the client's body invalid,
    whatever the body is and its digest. *)
Theorem C176_invalid_refuted : forall (B : Type) n bs row skips (e : env B) j digest fuel chunks broken t f,
  0 < bs -> bs <= length (concat chunks) -> (forall i, i < n -> ev_post e i = Fine) ->
  j < n -> sent_fails (ev_patch e 0 j) = true -> ev_lost e (GFlush 0) = false ->
  stream_to n bs row skips e true digest fuel chunks broken = Some (t, f) -> t = Invalid.
Proof. exact @blamed. Qed.
Print Assumptions C176_invalid_refuted.

Example C176_invalid_case : exists f,
  copies_to (Env (fun _ => Fine) (fun k i => if (k =? 0) && (i =? 1) then SFails None else SFine) (fun _ => Fine) (fun _ => Fine) (fun _ => false))
    true (fun _ => true) body8 false = Some (Invalid, f).
Proof. eexists. vm_compute. reflexivity. Qed.
