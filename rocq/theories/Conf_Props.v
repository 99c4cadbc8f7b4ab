(** C145 to C148: sizes and identities in configurations. *)
From Coq Require Import List NArith Ascii Bool Lia String.
From Verif Require Import Str_Model Util_Model Util_Spec Registry_Model Conf_Model Conf_Spec Conf_Proofs.
Import ListNotations.
Local Open Scope list_scope.
Local Open Scope N_scope.

(** ** C145: a size written and read again *)

(** What is read is the nearest number of the largest unit, wherever [math.Log] errs. *)
Theorem C145_read : forall d i, 0 < d -> d <= 2 ^ 53 -> near i d ->
  exists s u q, show_size i d = Some s /\ unit_for d u /\ nearest d u q /\ parse_size s = Some (q * u).
Proof. exact size_read. Qed.
Print Assumptions C145_read.

(** It is the same for the multiples of the unit, and no other. *)
(** Partial.  Full statement: A size that a server writes into a configuration, to show it or to
    keep it, is the size it had when it is read again.  It fails in general: [C145_rounded_refuted],
    [C145_zero_refuted].  Refuted for all other sizes (1.5 MB is read as 2 MB) and for 0, which
    panics. Sizes up to 2^53. *)
Theorem C145_same_partial : forall d i u, d <= 2 ^ 53 -> near i d -> unit_for d u -> (u | d) ->
  exists s, show_size i d = Some s /\ parse_size s = Some d.
Proof.
  intros d i u H N1 F D. destruct (size_same_iff d i u H N1 F) as (s & v & S1 & P & E).
  exists s. split; [exact S1|]. rewrite P. f_equal. apply E, D.
Qed.
Print Assumptions C145_same_partial.

Theorem C145_rounded_refuted : forall d i u, d <= 2 ^ 53 -> near i d -> unit_for d u -> ~ (u | d) ->
  exists s v, show_size i d = Some s /\ parse_size s = Some v /\ v <> d.
Proof.
  intros d i u H N1 F D. destruct (size_same_iff d i u H N1 F) as (s & v & S1 & P & E).
  exists s, v. split; [exact S1|]. split; [exact P|]. intros A. apply D, E, A.
Qed.
Print Assumptions C145_rounded_refuted.

(** Written once more it stays as it is. *)
Theorem C145_again : forall d i s v, 0 < d -> d <= 2 ^ 53 -> near i d -> show_size i d = Some s -> parse_size s = Some v ->
  0 < v /\ v <= 2 ^ 53 /\ forall i', near i' v -> exists s', show_size i' v = Some s' /\ parse_size s' = Some v.
Proof. exact read_stable. Qed.
Print Assumptions C145_again.

(** No size at all cannot be written. *)
Theorem C145_zero_refuted : forall i, show_size i 0 = None.
Proof. reflexivity. Qed.
Print Assumptions C145_zero_refuted.

(** 1.5 MB is read as 2 MB, 64 MB as it is; 1 MB may be shown as 1024 KB, and just below 1 GB
    as 1 GB. *)
Example C145_case :
  show_size 2 (3 * 2 ^ 19) = Some (s2l "2MB"%string) /\ parse_size (s2l "2MB"%string) = Some (2 * 2 ^ 20) /\
  near 2 (3 * 2 ^ 19) /\ unit_for (3 * 2 ^ 19) (2 ^ 20) /\ ~ (2 ^ 20 | 3 * 2 ^ 19) /\
  show_size 2 (64 * 2 ^ 20) = Some (s2l "64MB"%string) /\ unit_for (64 * 2 ^ 20) (2 ^ 20) /\ (2 ^ 20 | 64 * 2 ^ 20) /\
  near 1 (2 ^ 20) /\ show_size 1 (2 ^ 20) = Some (s2l "1024KB"%string) /\
  near 3 (2 ^ 30 - 1) /\ show_size 3 (2 ^ 30 - 1) = Some (s2l "1GB"%string).
Proof.
  split; [vm_compute; reflexivity|]. split; [vm_compute; reflexivity|]. split; [left; reflexivity|].
  split; [vm_compute; split; [auto 10|split; [discriminate|reflexivity]]|].
  split; [intros D; apply N.mod_divide in D; [vm_compute in D; discriminate|discriminate]|].
  split; [vm_compute; reflexivity|]. split; [vm_compute; split; [auto 10|split; [discriminate|reflexivity]]|].
  split; [exists 64; reflexivity|]. split; [right; left; split; reflexivity|]. split; [vm_compute; reflexivity|].
  split; [right; right; split; vm_compute; reflexivity|]. vm_compute. reflexivity.
Qed.

(** ** C146: the page of the configuration *)

(** The answer does not depend on secrets. *)
Theorem C146_hidden : forall idx a b, same_but_secrets a b -> show_config idx a = show_config idx b.
Proof. exact shown_hidden. Qed.
Print Assumptions C146_hidden.

(** If no size is 0 all the rest is shown. *)
(** Partial.  Full statement: The configuration of a server can be asked for; the answer has every
    setting, and nothing in it depends on users and passwords.  It fails in general:
    [C146_default_refuted].  Refuted: with any size 0, such as the default distinct-size of API
    servers, the page is an error. *)
Theorem C146_shown_partial : forall idx c, Forall (fun x : str * N => 0 < snd x) (cf_sizes c) ->
  exists l, show_config idx c = (200, l) /\
    (forall x, In x (cf_rest c) -> In x l) /\
    (forall k d, In (k, d) (cf_sizes c) -> exists t, show_size (idx d) d = Some t /\ In (k, t) l) /\
    List.length l = (3 + (match cf_auth c with Some _ => 2 | None => 0 end) + List.length (cf_sizes c) + List.length (cf_rest c))%nat.
Proof. exact shown_all. Qed.
Print Assumptions C146_shown_partial.

(** A size that is 0, as [distinct-size] of an API server is unless configured
    (config.go 54), makes it fail. *)
Theorem C146_default_refuted : forall idx c k, In (k, 0) (cf_sizes c) -> show_config idx c = (500, []).
Proof.
  intros idx c k H. unfold show_config, marshal, masked. cbn [cf_sizes]. rewrite (size_lines_none idx _ k H). reflexivity.
Qed.
Print Assumptions C146_default_refuted.

Definition api_conf (pw : str) (sizes : list (str * N)) : conf :=
  Conf (s2l "root"%string, pw) (Some (s2l "admin"%string, pw)) pw sizes [(s2l "port"%string, s2l "8080"%string)].

Example C146_case :
  same_but_secrets (api_conf (s2l "a"%string) [(s2l "distinct-size"%string, 2 ^ 20)]) (api_conf (s2l "b"%string) [(s2l "distinct-size"%string, 2 ^ 20)]) /\
  show_config unit_of (api_conf (s2l "a"%string) [(s2l "distinct-size"%string, 2 ^ 20)]) =
    (200, [(s2l "etcd.username"%string, stars); (s2l "etcd.password"%string, stars); (s2l "log.email.password"%string, stars);
           (s2l "auth.password.username"%string, stars); (s2l "auth.password.password"%string, stars);
           (s2l "distinct-size"%string, s2l "1MB"%string); (s2l "port"%string, s2l "8080"%string)]) /\
  show_config unit_of (api_conf (s2l "a"%string) [(s2l "distinct-size"%string, 0)]) = (500, []).
Proof.
  split; [split; [reflexivity|split; [reflexivity|split; discriminate]]|]. split; vm_compute; reflexivity.
Qed.

(** ** C147: a server started again *)

(** From the file a metadata server wrote it starts as the same server at any address.  Its
    cache may have another size, once. *)
(** Partial.  Full statement: A server that ended at any moment and is started again has its id, its
    directories and its settings, whatever address its machine has.  It fails in general:
    [C147_emptied_refuted], [C147_unwritten_refuted], [C147_shared_refuted], [C147_data_refuted].
    Refuted: ending while writing leaves an empty file and no start succeeds; before the first
    writing the id follows the address; two servers with one file get one id; data servers write
    nothing and lose their directories at another address. *)
Theorem C147_same_partial : forall idx tmp e f det det' c, good_log idx -> sane_env e -> tmp <> [] ->
  start tmp e (Some f) det = Some c -> mc_cache c <= 2 ^ 53 ->
  exists c', start tmp e (persist idx true c) det' = Some c' /\ same_server c c' /\
    (forall u, unit_for (mc_cache c) u -> (mc_cache c' = mc_cache c <-> (u | mc_cache c))) /\
    forall det'', start tmp e (persist idx true c') det'' = Some c'.
Proof. exact restart_same. Qed.
Print Assumptions C147_same_partial.

(** What is configured is what a metadata server runs with. *)
Theorem C147_settings : forall tmp e f det c, start tmp e (Some f) det = Some c -> me_dir e <> Some [] ->
  set_to (me_port e) (mf_port f) (s2l "8090"%string) (mc_port c) /\ set_to (me_ip e) (mf_ip f) [] (mc_ip c) /\
  set_to (me_dir e) (mf_dir f) tmp (mc_dir c) /\
  (forall i, i <> [] -> me_id e = Some i \/ me_id e = None /\ mf_id f = i -> mc_id c = i) /\
  mc_name c = mf_name f /\ mc_on c = mf_on f /\ mc_slots c = mf_slots f /\ (mf_group f <> [] -> mc_group c = mf_group f) /\
  (forall n, parse_size (mf_cache f) = Some n -> mf_cache f <> [] -> n <> 0 -> mc_cache c = n) /\
  mc_path c = mc_dir c ++ "/"%char :: mc_id c /\ mc_store c = (if mc_on c then mc_group c else mc_id c).
Proof.
  intros tmp e f det c H D. unfold start in H.
  destruct (match mf_cache f with [] => _ | _ => _ end) as [n|] eqn:P; [|discriminate H].
  injection H as <-. cbn [mc_port mc_ip mc_dir mc_id mc_name mc_on mc_slots mc_group mc_cache mc_path mc_store].
  assert (K : forall o x d, set_to o x d (pick o x d)).
  { intros o x d. unfold set_to, pick. split; [intros v ->; reflexivity|]. split; intros ->; [destruct x; congruence|intros ->; reflexivity]. }
  split; [apply K|]. split; [apply K|]. split.
  { unfold set_to, pick. destruct (me_dir e) as [[|v0 v]|]; [exfalso; apply D; reflexivity| |].
    - split; [intros x X; injection X as <-; reflexivity|]. split; intros X; discriminate X.
    - split; [intros x X; discriminate X|]. destruct (mf_dir f); split; congruence. }
  split.
  { intros i Ni [E|[E F]]; unfold pick; rewrite E; [|rewrite F; destruct i as [|i0 i]; [congruence|]]; apply server_id_given; exact Ni. }
  split; [reflexivity|]. split; [reflexivity|]. split; [reflexivity|].
  split; [destruct (mf_group f); [congruence|reflexivity]|]. split; [|split; reflexivity].
  intros m Q Ne Z. destruct (mf_cache f) as [|c0 l]; [congruence|]. assert (m = n) by congruence. subst m.
  destruct (N.eqb_spec n 0); [congruence|reflexivity].
Qed.
Print Assumptions C147_settings.

Example C147_settings_nonvacuous : exists c,
  start (s2l "/tmp"%string) (MEnv (Some (s2l "80"%string)) None None None)
    (Some (MFile (s2l "81"%string) (s2l "/d"%string) (s2l "meta"%string) [] (s2l "i"%string) true (s2l "g"%string) [s2l "0-5"%string] (s2l "2MB"%string)))
    (s2l "10.0.0.5"%string) = Some c /\
  mc_port c = s2l "80"%string /\ mc_path c = s2l "/d/i"%string /\ mc_store c = s2l "g"%string /\ mc_cache c = 2 ^ 21.
Proof. eexists. split; [vm_compute; reflexivity|]. repeat split. Qed.

(** A server ending while it writes never starts again: the file is emptied first. *)
Theorem C147_emptied_refuted : forall idx tmp e det c, start tmp e (persist idx false c) det = None.
Proof. reflexivity. Qed.
Print Assumptions C147_emptied_refuted.

(** Before it wrote, its id and its files follow the address of the machine. *)
Theorem C147_unwritten_refuted : forall tmp e f det det' c c',
  me_id e = None -> me_ip e = None -> mf_id f = [] -> mf_ip f = [] -> dashes det <> dashes det' ->
  start tmp e (Some f) det = Some c -> start tmp e (Some f) det' = Some c' ->
  mc_id c <> mc_id c' /\ mc_path c <> mc_path c' /\ (mf_on f = false -> mc_store c <> mc_store c').
Proof.
  intros tmp e f det det' c c' E1 E2 F1 F2 D H H'. unfold start in H, H'.
  destruct (match mf_cache f with [] => _ | _ => _ end) as [c0|]; [|discriminate].
  rewrite E1, E2, F1, F2 in H, H'. cbn [pick] in H, H'.
  remember (pick (me_port e) (mf_port f) (s2l "8090"%string)) as p eqn:Ep. clear Ep.
  pose proof (derived_differs (mf_name f) p det det' D) as X.
  injection H as <-. injection H' as <-. cbn [mc_id mc_path mc_store]. split; [exact X|]. split.
  - intros A. apply app_inv_head in A. injection A as A. apply X, A.
  - intros ->. exact X.
Qed.
Print Assumptions C147_unwritten_refuted.

(** Two servers with one file: the second, started later, takes the id of the first. *)
Theorem C147_shared_refuted : forall idx tmp e e' f f' det det' c c', start tmp e (Some f) det = Some c ->
  persist idx true c = Some f' -> me_id e' = None -> start tmp e' (Some f') det' = Some c' -> mc_id c' = mc_id c.
Proof.
  intros idx tmp e e' f f' det det' c c' H P E H'. unfold persist in P. destruct (show_size _ _) as [t|]; [|discriminate]. injection P as <-.
  assert (mc_id c <> []) as Ne.
  { unfold start in H. destruct (match mf_cache f with [] => _ | _ => _ end); [|discriminate].
    remember (s2l "8090"%string) as p eqn:Ep. remember (s2l "raft"%string) as g eqn:Eg. injection H as <-. cbn [mc_id]. apply server_id_nonempty. }
  unfold start in H'. cbn [mf_cache mf_id mf_port mf_ip mf_dir mf_name mf_group mf_on mf_slots] in H'.
  destruct (match t with [] => _ | _ => _ end); [|discriminate].
  remember (s2l "8090"%string) as p eqn:Ep. remember (s2l "raft"%string) as g eqn:Eg. injection H' as <-. cbn [mc_id].
  rewrite E. cbn [pick]. destruct (mc_id c) as [|x l]; [contradiction Ne; reflexivity|]. reflexivity.
Qed.
Print Assumptions C147_shared_refuted.

(** A data server keeps its directories if its id or its address is configured. *)
(** Partial; the full statement is at [C147_same_partial]. *)
Theorem C147_data_partial : forall path name ip id port det det', id <> [] \/ ip <> [] ->
  data_start path name ip id port det = data_start path name ip id port det'.
Proof.
  intros path name [|c ip] [|d id] port det det' H; try reflexivity. destruct H as [H|H]; contradiction H; reflexivity.
Qed.
Print Assumptions C147_data_partial.

(** If not, at another address its objects are elsewhere. *)
Theorem C147_data_refuted : forall path name port det det', dashes det <> dashes det' ->
  fst (fst (data_start path name [] [] port det)) <> fst (fst (data_start path name [] [] port det')) /\
  snd (fst (data_start path name [] [] port det)) <> snd (fst (data_start path name [] [] port det')) /\
  snd (data_start path name [] [] port det) <> snd (data_start path name [] [] port det').
Proof.
  intros path name port det det' D. pose proof (derived_differs name port det det' D) as X. unfold data_start. cbn [fst snd].
  split; [exact X|]. split; intros A; apply app_inv_head in A; injection A as A; apply app_inv_tail in A; apply X, A.
Qed.
Print Assumptions C147_data_refuted.

Definition no_env : menv := MEnv None None None None.
Definition meta_file : mfile := MFile [] [] (s2l "meta"%string) [] [] false [] [s2l "0-16384"%string] (s2l "100MB"%string).
Definition at_5 : str := s2l "10.0.0.5"%string.
Definition at_6 : str := s2l "10.0.0.6"%string.

(** Started at 10.0.0.5, written, started at 10.0.0.6. *)
Example C147_case :
  good_log unit_of /\ sane_env no_env /\ dashes at_5 <> dashes at_6 /\
  exists c c6, start (s2l "/tmp"%string) no_env (Some meta_file) at_5 = Some c /\
    mc_id c = s2l "meta-10005-8090"%string /\ mc_path c = s2l "/tmp/meta-10005-8090"%string /\ mc_cache c = 100 * 2 ^ 20 /\
    start (s2l "/tmp"%string) no_env (persist unit_of true c) at_6 = Some c /\
    start (s2l "/tmp"%string) no_env (Some meta_file) at_6 = Some c6 /\ mc_id c6 = s2l "meta-10006-8090"%string /\
    snd (fst (data_start (s2l "/d"%string) (s2l "data"%string) [] [] (s2l "80"%string) at_5)) = s2l "/d/data-10005-80_store"%string.
Proof.
  split; [intros d _; left; reflexivity|]. split; [discriminate|]. split; [vm_compute; discriminate|].
  eexists. eexists. split; [vm_compute; reflexivity|]. split; [vm_compute; reflexivity|]. split; [vm_compute; reflexivity|].
  split; [vm_compute; reflexivity|]. split; [vm_compute; reflexivity|]. split; [vm_compute; reflexivity|]. split; vm_compute; reflexivity.
Qed.

(** ** C148: the limit of a cache *)

(** From 1 MB on a cache is limited to what is configured, less than 1 MB below it. *)
(** Partial.  Full statement: The memory a cache is allowed to take is no more than the configured
    size.  It fails in general: [C148_small_refuted].  Refuted below: bigcache takes 0 MB for no
    limit. *)
Theorem C148_limited_partial : forall d, 2 ^ 20 <= d -> exists n, cache_limit d = Some n /\ 0 < n /\ n <= d /\ d < n + 2 ^ 20.
Proof.
  intros d H. unfold cache_limit. remember (2 ^ 20) as m eqn:Em. assert (0 < m) as P by (rewrite Em; reflexivity). clear Em.
  pose proof (N.div_mod d m ltac:(lia)) as D. pose proof (N.mod_lt d m ltac:(lia)) as M.
  destruct (N.eqb_spec (d / m) 0) as [E|E]; [rewrite E in D; lia|]. exists (d / m * m). split; [reflexivity|]. nia.
Qed.
Print Assumptions C148_limited_partial.

(** Below it is not limited at all. *)
Theorem C148_small_refuted : forall d, d < 2 ^ 20 -> cache_limit d = None.
Proof. intros d H. unfold cache_limit. rewrite N.div_small by exact H. reflexivity. Qed.
Print Assumptions C148_small_refuted.

Example C148_case : cache_limit (5 * 2 ^ 19) = Some (2 ^ 21) /\ cache_limit (512 * 2 ^ 10) = None.
Proof. split; vm_compute; reflexivity. Qed.
