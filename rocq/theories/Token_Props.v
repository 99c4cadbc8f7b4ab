(** Theorems about tokens of resumable uploads: C166-C168. *)
From Coq Require Import List Bool ZArith Lia String.
From Verif Require Import Str_Model Token_Model Token_Spec Token_Proofs.
Import ListNotations.
Local Open Scope list_scope.
Local Open Scope Z_scope.

(** ** C166: a token continues only the upload it was given out for *)

(** What a request saves is what the token names, nothing else, and only if the bytes stored and sent make up the size
    and the digest is right. *)
Theorem C166_saved : forall e t first n b nm h z ss, saves (patch e t first n) b nm h z ss ->
  exists tk, t = Some tk /\ b = tk_bucket tk /\ nm = tk_name tk /\ h = tk_hash tk /\ z = tk_size tk /\ ss = tk_servers tk /\
    (exists f, first = Some f /\ i64 (f + n) = z) /\ ev_digest e = true /\ ev_save e = true.
Proof.
  intros e t first n b nm h z ss H. unfold saves in H. destruct t as [t|]; [|destruct first; contradiction H].
  exists t. split; [reflexivity|]. destruct (patch_deeds _ _ _ _ _ H) as [(s & i & C & _)|C]; [discriminate C|].
  injection C as -> -> -> -> ->. do 5 (split; [reflexivity|]).
  unfold patch in H. destruct first as [f|]; [|contradiction H]. destruct (open_stream e t) as [[c ws]|] eqn:O; [|contradiction H].
  assert (W : ws = combine (tk_servers t) (tk_ids t)).
  { unfold open_stream in O. destruct (_ <? _)%nat; [discriminate O|]. destruct (tk_config t); [|discriminate O].
    destruct (_ || _); [discriminate O|]. congruence. }
  assert (NA : forall d, (forall x, In x d -> exists s i, x = Asked s i /\ In (s, i) ws) ->
    ~ In (Saved (tk_bucket t) (tk_name t) (tk_hash t) (tk_size t) (tk_servers t)) d).
  { intros d A X. destruct (A _ X) as (s & i & X' & _). discriminate X'. }
  assert (NC : forall d0 z0 c0, current_size e t c0 = CSize d0 z0 ->
    ~ In (Saved (tk_bucket t) (tk_name t) (tk_hash t) (tk_size t) (tk_servers t)) d0).
  { intros d0 z0 c0 E0 X. destruct (current_deeds e t c0 _ (or_intror (ex_intro _ d0 (ex_intro _ z0 (conj E0 X))))) as (s & i & X' & _). discriminate X'. }
  assert (NE : forall d0 z0 c0, current_size e t c0 = CErr d0 z0 ->
    ~ In (Saved (tk_bucket t) (tk_name t) (tk_hash t) (tk_size t) (tk_servers t)) d0).
  { intros d0 z0 c0 E0 X. destruct (current_deeds e t c0 _ (or_introl (ex_intro _ d0 (ex_intro _ z0 (conj E0 X))))) as (s & i & X' & _). discriminate X'. }
  destruct (current_size e t c) as [|d st|d0 size] eqn:Cs; [contradiction H|contradiction (NE _ _ _ Cs H)|].
  destruct (size =? f) eqn:Ef; cbn [negb] in H; [|contradiction (NC _ _ _ Cs H)]. apply Z.eqb_eq in Ef. subst size.
  destruct (_ && _); [contradiction (NC _ _ _ Cs H)|].
  set (k := Z.to_nat _) in *. set (rest := negb (n mod _ =? 0)) in *. clearbody k rest. cbn [within fst] in H.
  apply in_app_or in H as [H|H]; [contradiction (NC _ _ _ Cs H)|].
  pose proof (blocks_deeds e k 0 c ws) as B. destruct (blocks e 0 k c ws) as [d r]. cbn [fst] in B.
  destruct r; try contradiction (NA _ B H). cbn [within fst] in H. apply in_app_or in H as [H|H]; [contradiction (NA _ B H)|].
  pose proof (commit_deeds e k rest c ws) as Cm.
  destruct (_ <? _) eqn:L1 in H; [contradiction H|].
  destruct (_ <? _) eqn:L2 in H; [rewrite after_deeds in H; contradiction (NA _ Cm H)|].
  destruct (_ =? _) in H; [contradiction H|].
  destruct (ev_digest e); cbn [negb] in H; [|rewrite after_deeds in H; contradiction (NA _ Cm H)].
  destruct (ev_save e); cbn [negb] in H; [|rewrite after_deeds in H; contradiction (NA _ Cm H)].
  apply Z.ltb_ge in L1, L2. split; [exists f; split; [reflexivity|lia]|split; reflexivity].
Qed.

(** With the token given out for an upload the version is that upload's. *)
(** Partial.  Full statement: A request that continues a resumable upload saves a version of the
    bucket, name, hash and size the upload was begun with, at the servers selected then, and only
    when all bytes have come and the digest is right; nobody saves a version without an upload begun
    at the server.  It fails in general: [C166_forged_refuted].  Refuted in general: tokens are not
    signed, so whoever knows one piece at a data server saves a version under any bucket and name
    with an empty body. *)
Theorem C166_issued_partial : forall e bucket name hash size compress c servers ids t first n b nm h z ss,
  issue bucket name hash size compress c servers ids = Some t -> saves (patch e (Some t) first n) b nm h z ss ->
  b = bucket /\ nm = name /\ h = hash /\ z = size /\ ss = servers.
Proof.
  intros e bucket name hash size compress c servers ids t first n b nm h z ss Hi H.
  apply C166_saved in H as (tk & E & -> & -> & -> & -> & -> & _). injection E as <-.
  unfold issue in Hi. destruct (_ || _); [discriminate Hi|]. injection Hi as <-. repeat split.
Qed.

(** Refuted in general: whoever knows one piece that lies at a data server makes a token of their own, and with an empty
    body a version is saved under any bucket, name and hash, that no upload was begun for. *)
Theorem C166_forged_refuted : forall e bucket name hash s i m, 0 <= m < 2 ^ 63 -> 1 <= ev_cap e ->
  ev_addr e s i = true -> ev_head e s i = inl m -> ev_put e s i = true -> ev_digest e = true -> ev_save e = true ->
  exists t, patch e (Some t) (Some m) 0 =
    ([Asked s i; Saved bucket name hash m [s]; Asked s i], Answered 200).
Proof.
  intros e bucket name hash s i m M Cap A Hd P D Sv.
  exists (mk_token false m name hash bucket [s] [i] (Some (mk_rsconf 1 0 1))).
  unfold patch, open_stream. cbn [tk_servers tk_ids tk_config List.length Nat.ltb Nat.leb].
  change (block_size (mk_rsconf 1 0 1)) with 1. replace (ev_cap e <? 1) with false by (symmetry; apply Z.ltb_ge; lia).
  change (1 <? 0) with false. cbn [orb].
  unfold current_size. cbn [tk_servers tk_ids]. rewrite A, Hd. cbn [rc_data tk_size].
  rewrite Z.mul_1_r, i64_small by lia. rewrite Z.ltb_irrefl, Z.eqb_refl. cbn [negb].
  cbv beta iota zeta. change (block_size (mk_rsconf 1 0 1)) with 1.
  change ((0 <? 0) && (1 =? 0)) with false. cbv iota. change (Z.to_nat (0 / 1)) with 0%nat. change (negb (0 mod 1 =? 0)) with false.
  cbn [blocks]. rewrite Z.add_0_r, i64_small by lia. rewrite Z.ltb_irrefl. change (1 =? 0) with false. cbv iota.
  rewrite D, Sv. cbn [negb]. unfold commit, after, within. cbn [combine filter map forallb fst snd]. rewrite A, P.
  cbn [andb fst snd app map tk_bucket tk_name tk_hash tk_servers]. reflexivity.
Qed.

(** ** C167: only the servers of an upload are asked *)

Theorem C167_patch : forall e t first n s i, asks (patch e (Some t) first n) s i ->
  In (s, i) (combine (tk_servers t) (tk_ids t)).
Proof.
  intros e t first n s i H. destruct (patch_deeds _ _ _ _ _ H) as [(s' & i' & E & H')|E]; [|discriminate E].
  injection E as -> ->. exact H'.
Qed.

Theorem C167_head : forall e t s i, asks (head e (Some t)) s i ->
  (exists ss ii, tk_servers t = s :: ss /\ tk_ids t = i :: ii) /\ forall x, In x (fst (head e (Some t))) -> x = Asked s i.
Proof.
  intros e t s i H. unfold asks, head in *. destruct (open_stream e t) as [[c ws]|]; [|contradiction H].
  unfold current_size in *. destruct (tk_servers t) as [|s' ss], (tk_ids t) as [|i' ii]; try contradiction H.
  destruct (ev_addr e s' i'); [|contradiction H].
  destruct (ev_head e s' i'); (destruct H as [H|[]]; injection H as -> ->; split; [exists ss, ii; split; reflexivity|];
    intros x [X|[]]; symmetry; exact X).
Qed.

(** With a token given out only servers that were selected are asked. *)
(** Partial.  Full statement: With a token of a resumable upload the server asks only data servers
    that were selected for the upload, for the pieces they gave.  It fails in general:
    [C167_any_refuted].  Refuted in general: a token of one's own makes the server ask any address. *)
Theorem C167_issued_partial : forall e bucket name hash size compress c servers ids t first n s i,
  issue bucket name hash size compress c servers ids = Some t ->
  asks (patch e (Some t) first n) s i \/ asks (head e (Some t)) s i -> In s servers /\ In i ids.
Proof.
  intros e bucket name hash size compress c servers ids t first n s i Hi H.
  unfold issue in Hi. destruct (_ || _); [discriminate Hi|]. injection Hi as <-.
  destruct H as [H|H].
  - apply C167_patch in H. split; [exact (in_combine_l _ _ _ _ H)|exact (in_combine_r _ _ _ _ H)].
  - apply C167_head in H as [(ss & ii & E1 & E2) _]. cbn in E1, E2. subst. split; left; reflexivity.
Qed.

(** Refuted in general: a client makes the server send a request to any address there is, with a token of their own. *)
Theorem C167_any_refuted : forall e s i, 0 <= ev_cap e -> ev_addr e s i = true ->
  exists t, asks (head e (Some t)) s i /\ comes_to_an_end (head e (Some t)).
Proof.
  intros e s i Cap A. exists (mk_token false 0 [] [] [] [s] [i] (Some (mk_rsconf 0 0 0))).
  unfold asks, comes_to_an_end, head, open_stream. cbn [tk_servers tk_ids tk_config List.length Nat.ltb Nat.leb].
  change (block_size (mk_rsconf 0 0 0)) with 0. replace (ev_cap e <? 0) with false by (symmetry; apply Z.ltb_ge; lia).
  change (0 <? 0) with false. cbn [orb]. unfold current_size. cbn [tk_servers tk_ids]. rewrite A.
  destruct (ev_head e s i); (split; [left; reflexivity|eexists; reflexivity]).
Qed.

(** ** C168: a request with a token is answered, and the server goes on *)

(** Asking for the size is answered whatever the token is. *)
Theorem C168_head : forall e t, comes_to_an_end (head e t).
Proof.
  intros e t. unfold comes_to_an_end, head. destruct t as [t|]; [|eexists; reflexivity].
  rewrite in_handler_500. destruct (open_stream e t) as [[c ws]|]; [|eexists; reflexivity].
  destruct (current_size e t c); eexists; reflexivity.
Qed.

(** So is sending with every token that is well made. *)
(** Partial.  Full statement: Whatever the token, range and body of a request are, it is answered
    after finitely many steps and the server keeps running.  It fails in general:
    [C168_pieces_refuted], [C168_address_refuted], [C168_endless_refuted].  Refuted otherwise: fewer
    pieces than shards or an address that is none panic in a goroutine and end the server; empty
    blocks never end, and only they do. *)
Theorem C168_well_made_partial : forall e t first n, well_made e t -> comes_to_an_end (patch e (Some t) first n).
Proof.
  intros e t first n W. pose proof W as (c & Hc & D & P & A & B & BS & Cap & R & L & Le & Ad).
  unfold comes_to_an_end, patch. destruct first as [f|]; [|eexists; reflexivity].
  unfold open_stream. replace (_ <? _)%nat with false by (symmetry; apply Nat.ltb_ge; exact Le). rewrite Hc.
  assert (E : block_size c = rc_block c * rc_data c) by (unfold block_size; apply i64_small; nia).
  rewrite E. replace (_ || _) with false
    by (symmetry; apply Bool.orb_false_iff; split; apply Z.ltb_ge; nia).
  destruct (current_size e t c) as [|d st|d0 size]; [eexists; rewrite in_handler_500; reflexivity|eexists; reflexivity|].
  destruct (negb _); [eexists; reflexivity|]. cbv beta iota zeta. rewrite ?E.
  replace (rc_block c * rc_data c =? 0) with false by (symmetry; apply Z.eqb_neq; nia).
  rewrite Bool.andb_false_r. set (k := Z.to_nat _). set (rest := negb (n mod _ =? 0)). clearbody k rest.
  destruct (blocks_safe e t c k 0 Hc W) as (db & rb & -> & Sb).
  destruct (commit_safe e t c k rest Hc W) as (dc & rr & -> & Sc).
  destruct rb; [|eexists; reflexivity|contradiction (Sb f0); reflexivity]. cbn [within snd].
  destruct (_ <? _); [eexists; reflexivity|]. destruct (_ <? _); [apply after_safe; exact Sc|].
  destruct (_ =? _); [eexists; rewrite in_handler_500; reflexivity|].
  destruct (negb _); [apply after_safe; exact Sc|]. destruct (negb _); [apply after_safe; exact Sc|].
  cbn [within snd]. apply after_safe. exact Sc.
Qed.

(** Tokens that are given out are well made, if the settings are and servers answered with ids. *)
Theorem C168_issued : forall e bucket name hash size compress c servers ids t,
  issue bucket name hash size compress c servers ids = Some t ->
  0 < rc_data c -> 0 <= rc_parity c -> rc_data c + rc_parity c < 2 ^ 63 -> 0 < rc_block c ->
  rc_block c * rc_data c < 2 ^ 63 -> rc_block c * rc_data c <= ev_cap e -> ev_rs e (rc_data c) (rc_parity c) = true ->
  Z.of_nat (List.length ids) = rc_data c + rc_parity c -> (forall s i, In s servers -> In i ids -> ev_addr e s i = true) ->
  well_made e t.
Proof.
  intros e bucket name hash size compress c servers ids t Hi D P A B BS Cap R L Ad. unfold issue in Hi.
  destruct (_ || _) eqn:E; [discriminate Hi|]. injection Hi as <-. apply Bool.orb_false_iff in E as [E _].
  apply Z.ltb_ge in E. unfold all_shards in E. rewrite i64_small in E by lia.
  exists c. cbn [tk_config tk_ids tk_servers]. do 9 (split; [first [reflexivity|assumption]|]). split; [lia|].
  intros s i H. apply Ad; [exact (in_combine_l _ _ _ _ H)|exact (in_combine_r _ _ _ _ H)].
Qed.

(** Malformed tokens that are noticed while the stream is made are answered with 500, and nobody was asked. *)
Theorem C168_malformed : forall e t f n,
  tk_config t = None \/ (List.length (tk_servers t) < List.length (tk_ids t))%nat \/ tk_ids t = [] ->
  patch e (Some t) (Some f) n = ([], Answered 500) /\ head e (Some t) = ([], Answered 500).
Proof.
  intros e t f n H. unfold patch, head. rewrite in_handler_500. unfold open_stream.
  destruct ((_ <? _)%nat) eqn:L; [split; reflexivity|]. apply Nat.ltb_ge in L.
  destruct H as [H|[H|H]]; [rewrite H; split; reflexivity|lia|].
  destruct (tk_config t) as [c|]; [|split; reflexivity]. destruct (_ || _); [split; reflexivity|].
  unfold current_size. rewrite H. destruct (tk_servers t); split; reflexivity.
Qed.

(** Refuted: a token with fewer pieces than shards ends the server with the first full block, whatever the servers do. *)
Theorem C168_pieces_refuted : forall e s i m, 0 <= m < 2 ^ 63 -> 1 <= ev_cap e -> ev_rs e 1 1 = true -> ev_addr e s i = true ->
  ev_head e s i = inl m -> exists t, snd (patch e (Some t) (Some m) 1) = Gone.
Proof.
  intros e s i m M Cap R A Hd.
  exists (mk_token false (2 ^ 63 - 1) [] [] [] [s] [i] (Some (mk_rsconf 1 1 1))).
  unfold patch, open_stream. cbn [tk_servers tk_ids tk_config List.length Nat.ltb Nat.leb].
  change (block_size (mk_rsconf 1 1 1)) with 1. replace (ev_cap e <? 1) with false by (symmetry; apply Z.ltb_ge; lia).
  change (1 <? 0) with false. cbn [orb].
  unfold current_size. cbn [tk_servers tk_ids]. rewrite A, Hd. cbn [rc_data tk_size].
  rewrite Z.mul_1_r, i64_small by lia. replace (2 ^ 63 - 1 <? m) with false by (symmetry; apply Z.ltb_ge; lia).
  rewrite Z.eqb_refl. cbn [negb]. cbv beta iota zeta. change (block_size (mk_rsconf 1 1 1)) with 1.
  change ((0 <? 1) && (1 =? 0)) with false. cbv iota.
  change (Z.to_nat (1 / 1)) with 1%nat. cbn [blocks].
  unfold flush. cbn [rc_data rc_parity]. rewrite R. change (Z.to_nat (all_shards (mk_rsconf 1 1 1))) with 2%nat.
  cbn [combine firstn seq existsb fatal nth_error]. rewrite A. cbn [negb andb orb within snd]. exact in_worker_gone.
Qed.

(** So does a token with an address that is none, unless the goroutine comes too late. *)
Theorem C168_address_refuted : forall e s i s' i' m, 0 <= m < 2 ^ 63 -> 1 <= ev_cap e -> ev_rs e 1 1 = true ->
  ev_addr e s i = true -> ev_head e s i = inl m -> ev_addr e s' i' = false -> ev_late e 0 1 = false ->
  exists t, snd (patch e (Some t) (Some m) 1) = Gone.
Proof.
  intros e s i s' i' m M Cap R A Hd A' La.
  exists (mk_token false (2 ^ 63 - 1) [] [] [] [s; s'] [i; i'] (Some (mk_rsconf 1 1 1))).
  unfold patch, open_stream. cbn [tk_servers tk_ids tk_config List.length Nat.ltb Nat.leb].
  change (block_size (mk_rsconf 1 1 1)) with 1. replace (ev_cap e <? 1) with false by (symmetry; apply Z.ltb_ge; lia).
  change (1 <? 0) with false. cbn [orb].
  unfold current_size. cbn [tk_servers tk_ids]. rewrite A, Hd. cbn [rc_data tk_size].
  rewrite Z.mul_1_r, i64_small by lia. replace (2 ^ 63 - 1 <? m) with false by (symmetry; apply Z.ltb_ge; lia).
  rewrite Z.eqb_refl. cbn [negb]. cbv beta iota zeta. change (block_size (mk_rsconf 1 1 1)) with 1.
  change ((0 <? 1) && (1 =? 0)) with false. cbv iota.
  change (Z.to_nat (1 / 1)) with 1%nat. cbn [blocks].
  unfold flush. cbn [rc_data rc_parity]. rewrite R. change (Z.to_nat (all_shards (mk_rsconf 1 1 1))) with 2%nat.
  cbn [combine firstn seq existsb fatal nth_error]. rewrite A, A', La. cbn [negb andb orb within snd]. exact in_worker_gone.
Qed.

(** And one with empty blocks goes on for ever, with any body that is not empty. *)
Theorem C168_endless_refuted : forall e s i m n, 0 <= ev_cap e -> ev_addr e s i = true -> ev_head e s i = inl m -> 0 < n ->
  exists t, snd (patch e (Some t) (Some 0) n) = Endless.
Proof.
  intros e s i m n Cap A Hd N.
  exists (mk_token false 0 [] [] [] [s] [i] (Some (mk_rsconf 0 0 0))).
  unfold patch, open_stream. cbn [tk_servers tk_ids tk_config List.length Nat.ltb Nat.leb].
  change (block_size (mk_rsconf 0 0 0)) with 0. replace (ev_cap e <? 0) with false by (symmetry; apply Z.ltb_ge; lia).
  change (0 <? 0) with false. cbn [orb].
  unfold current_size. cbn [tk_servers tk_ids]. rewrite A, Hd. cbn [rc_data tk_size].
  rewrite Z.mul_0_r. change (i64 0) with 0. change (0 <? 0) with false. cbv iota. change (0 =? 0) with true.
  cbn [negb]. cbv beta iota zeta. change (block_size (mk_rsconf 0 0 0)) with 0. change (0 =? 0) with true.
  rewrite Bool.andb_true_r. replace (0 <? n) with true by (symmetry; apply Z.ltb_lt; exact N). reflexivity.
Qed.

(** Nothing goes on for ever otherwise. *)
Theorem C168_endless : forall e t first n, snd (patch e t first n) = Endless ->
  exists tk c, t = Some tk /\ tk_config tk = Some c /\ block_size c = 0 /\ 0 < n.
Proof.
  intros e t first n H. unfold patch in H. destruct first as [f|]; [|discriminate H]. destruct t as [t|]; [|discriminate H].
  destruct (open_stream e t) as [[c ws]|] eqn:O; [|rewrite in_handler_500 in H; discriminate H].
  exists t, c. split; [reflexivity|]. assert (tk_config t = Some c) as ->.
  { unfold open_stream in O. destruct (_ <? _)%nat; [discriminate O|]. destruct (tk_config t); [|discriminate O].
    destruct (_ || _); [discriminate O|]. congruence. }
  split; [reflexivity|].
  assert (F : forall k, snd (flush e k c ws) <> FEnd Endless).
  { intros k. unfold flush. rewrite in_handler_500, in_worker_gone. destruct (ev_rs _ _ _); [|discriminate].
    destruct (existsb _ _); [discriminate|]. destruct (forallb _ _); discriminate. }
  assert (Bl : forall m k, snd (blocks e k m c ws) <> FEnd Endless).
  { induction m as [|m IH]; intros k; [discriminate|]. cbn [blocks]. specialize (F k). destruct (flush e k c ws) as [d r].
    destruct r; [|exact F|exact F]. specialize (IH (S k)). destruct (blocks e (S k) m c ws). exact IH. }
  assert (Cm : forall k rest, snd (commit e k rest c ws) <> FEnd Endless).
  { intros k rest. unfold commit. specialize (F k). destruct rest; [destruct (flush e k c ws) as [d r]; destruct r; [|exact F|exact F]|].
    - cbn [snd]. destruct (forallb _ _); discriminate.
    - cbn [snd]. destruct (forallb _ _); discriminate. }
  assert (Af : forall k rest a b, snd (after (commit e k rest c ws) a b) <> Endless).
  { intros k rest a b. specialize (Cm k rest). destruct (commit e k rest c ws) as [d r]. destruct r; cbn [after snd]; [discriminate|discriminate|].
    intros X. apply Cm. cbn [snd]. congruence. }
  destruct (current_size e t c) as [|d st|d0 size]; [rewrite in_handler_500 in H; discriminate H|discriminate H|].
  destruct (negb (size =? f)); [discriminate H|].
  destruct ((0 <? n) && (block_size c =? 0)) eqn:Z0.
  - apply Bool.andb_true_iff in Z0 as [Z1 Z2]. apply Z.ltb_lt in Z1. apply Z.eqb_eq in Z2. split; assumption.
  - exfalso. set (k := Z.to_nat _) in *. set (rest := negb (n mod _ =? 0)) in *. clearbody k rest. cbn [within snd] in H.
    specialize (Bl k 0%nat). destruct (blocks e 0 k c ws) as [d r]. destruct r; [|discriminate H|apply Bl; cbn [snd] in *; congruence].
    cbn [within snd] in H. rewrite in_handler_500 in H.
    repeat (match type of H with context [if ?b then _ else _] => destruct b end; [first [discriminate H|exact (Af _ _ _ _ H)]|]).
    exact (Af _ _ _ _ H).
Qed.

(** ** Examples *)

Definition ex_s (n : nat) : str := match n with O => s2l "10.0.0.1:80"%string | S O => s2l "10.0.0.2:80"%string | _ => s2l "%"%string end.
Definition ex_i (n : nat) : str := match n with O => s2l "u1"%string | _ => s2l "u2"%string end.
Definition ex_env : env := mk_env (fun d p => (0 <? d) && (0 <=? p)) (2 ^ 40)
  (fun s _ => match s with "%"%char :: _ => false | _ => true end)
  (fun _ i => if list_eq_dec Ascii.ascii_dec i (ex_i 0) then inl 2 else inr 404)
  (fun _ _ _ => true) (fun _ _ => true) (fun _ _ => false) true true.
Definition ex_conf : rsconf := mk_rsconf 1 1 2.
Definition ex_token : token := mk_token true 5 (s2l "a.txt"%string) (s2l "h"%string) (s2l "b"%string) [ex_s 0; ex_s 1] [ex_i 0; ex_i 1] (Some ex_conf).

(** The upload of five bytes of which two have come: three more finish it, two do not. *)
Example C166_nonvacuous :
  issue (s2l "b"%string) (s2l "a.txt"%string) (s2l "h"%string) 5 true ex_conf [ex_s 0; ex_s 1] [ex_i 0; ex_i 1] = Some ex_token /\
  saves (patch ex_env (Some ex_token) (Some 2) 3) (s2l "b"%string) (s2l "a.txt"%string) (s2l "h"%string) 5 [ex_s 0; ex_s 1] /\
  snd (patch ex_env (Some ex_token) (Some 2) 3) = Answered 200 /\ snd (patch ex_env (Some ex_token) (Some 2) 2) = Answered 206 /\
  snd (patch ex_env (Some ex_token) (Some 1) 3) = Answered 416 /\ snd (patch ex_env (Some ex_token) (Some 2) 9) = Answered 403 /\
  List.length (fst (patch ex_env (Some ex_token) (Some 2) 3)) = 8%nat.
Proof. unfold saves. vm_compute. repeat split. do 3 right. left. reflexivity. Qed.
Example C166_forged_nonvacuous : ev_addr ex_env (ex_s 0) (ex_i 0) = true /\ ev_head ex_env (ex_s 0) (ex_i 0) = inl 2 /\
  ev_put ex_env (ex_s 0) (ex_i 0) = true /\ ev_digest ex_env = true /\ ev_save ex_env = true /\ 1 <= ev_cap ex_env.
Proof. repeat split. vm_compute. discriminate. Qed.
Example C167_nonvacuous : asks (patch ex_env (Some ex_token) (Some 2) 3) (ex_s 1) (ex_i 1) /\
  asks (head ex_env (Some ex_token)) (ex_s 0) (ex_i 0).
Proof. unfold asks. vm_compute. split; [right; right; left|left]; reflexivity. Qed.
Example C168_nonvacuous : well_made ex_env ex_token.
Proof.
  exists ex_conf. cbn [tk_config ex_token ex_conf rc_data rc_parity rc_block]. repeat split; try (vm_compute; congruence).
  - vm_compute. lia.
  - intros s i [E|[E|[]]]; injection E as <- <-; reflexivity.
Qed.
Example C168_address_nonvacuous : ev_addr ex_env (ex_s 2) (ex_i 1) = false /\ ev_late ex_env 0 1 = false /\ ev_rs ex_env 1 1 = true.
Proof. repeat split. Qed.

Print Assumptions C166_saved.
Print Assumptions C166_issued_partial.
Print Assumptions C166_forged_refuted.
Print Assumptions C167_patch.
Print Assumptions C167_head.
Print Assumptions C167_issued_partial.
Print Assumptions C167_any_refuted.
Print Assumptions C168_head.
Print Assumptions C168_well_made_partial.
Print Assumptions C168_issued.
Print Assumptions C168_malformed.
Print Assumptions C168_pieces_refuted.
Print Assumptions C168_address_refuted.
Print Assumptions C168_endless_refuted.
Print Assumptions C168_endless.
