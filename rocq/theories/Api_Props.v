From Coq Require Import List Arith ZArith Ascii Bool Lia.
From Verif Require Import Str_Model Api_Model Api_Spec Api_Proofs.
Import ListNotations.
Local Open Scope nat_scope.
Local Notation length := List.length.

(** * C30: shards are spread evenly over the data servers *)

(** Whatever the strategy decides at each of the [length ss] calls (random index, space
    map, io map): that many servers are returned, all of them among [ds], and two
    servers are used equally often up to one. *)
Theorem C30_even_spread : forall (A : Type) (dec : forall x y : A, {x = y} + {x <> y}) (ds : list A) (ss : list (strategy A)),
  ds <> [] -> NoDup ds ->
  exists l, select_servers ss ds = Some l /\ length l = length ss /\ (forall x, In x l -> In x ds) /\
    forall x y, In x ds -> In y ds -> count_occ dec l x <= count_occ dec l y + 1.
Proof. intros A dec ds ss Hne Hnd. exact (spread dec ds Hne Hnd ss). Qed.
Print Assumptions C30_even_spread.

(** With no more shards than servers, every shard gets its own server. *)
Theorem C30_own_server : forall (A : Type) (ds : list A) (ss : list (strategy A)) l,
  (forall x y : A, {x = y} + {x <> y}) -> ds <> [] -> NoDup ds -> length ss <= length ds ->
  select_servers ss ds = Some l -> NoDup l.
Proof. intros A ds ss l dec. exact (spread_distinct A ds dec ss l). Qed.
Print Assumptions C30_own_server.

Example C30_nonvacuous :
  select_servers [SRandom 1; SSpace (fun x => Some (Z.of_nat x)); SRandom 0; SIo (fun x => if x =? 3 then None else Some (- Z.of_nat x)%Z); SRandom 7]
    [3; 5; 9] = Some [5; 3; 9; 9; 5] /\ NoDup [3; 5; 9].
Proof. split; [reflexivity|]. repeat constructor; cbn; intuition discriminate. Qed.
(** An empty server list gives no servers (and no panic). *)
Example C30_none : select_servers [SRandom 1; SRandom 2] ([] : list nat) = Some [].
Proof. reflexivity. Qed.

(** * C32: a request is served only if allowed *)

(** The handler runs exactly when authentication is off, the path is white-listed or
    some validator accepted; errors of other validators, before or after, do not
    matter. *)
Theorem C32_passes_iff : forall enable white path vs,
  auth_chain enable white path vs = None <->
  enable = false \/ white_listed white path \/ exists o, In o vs /\ accepts o.
Proof. exact auth_passes. Qed.
Print Assumptions C32_passes_iff.

(** A refused request is answered with the last error reported, else 403; the error is
    always there. *)
Theorem C32_refusal : forall enable white path vs e, auth_chain enable white path vs = Some e ->
  e = match fold_left (fun a o => match oc_err o with Some e => Some e | None => a end) vs None with
      | Some e => e | None => 403%Z end.
Proof. exact auth_refusal. Qed.
Print Assumptions C32_refusal.

(** The password validator accepts exactly the stored credential. *)
Theorem C32_password : forall enable basic g, accepts (password_mw enable basic g) <->
  enable = true /\ exists u p, basic = Some (u, p) /\ g = EGet (Some (mk_cred u p)).
Proof. exact password_accepts. Qed.
Print Assumptions C32_password.

(** The callback validator accepts exactly when the callback said yes to the bucket of
    the request: the label before the first dot of the host, or, if the host has no
    such label, the Bucket header. *)
Theorem C32_callback : forall enable host hdr post, accepts (callback_mw enable host hdr post) <->
  enable = true /\ exists b, b <> [] /\ post b = None /\
    ((exists rest, host = b ++ "."%char :: rest /\ ~ In "."%char b) \/
     (b = hdr /\ (~ In "."%char host \/ exists rest, host = "."%char :: rest))).
Proof. exact callback_accepts. Qed.
Print Assumptions C32_callback.

Example C32_nonvacuous :
  let st := EGet (Some (mk_cred (s2l "admin") (s2l "pw"))) in
  let bad := password_mw true (Some (s2l "admin", s2l "xx")) st in
  let good := password_mw true (Some (s2l "admin", s2l "pw")) st in
  let cb := callback_mw true (s2l "b1.host") [] (fun b => if str_eqb b (s2l "b1") then None else Some 403%Z) in
  auth_chain true [s2l "/ping"] (s2l "/v1/objects") [bad] = Some 401%Z /\
  auth_chain true [s2l "/ping"] (s2l "/v1/objects") [bad; cb] = None /\
  auth_chain true [s2l "/ping"] (s2l "/v1/objects") [good; mk_outcome false (Some 500%Z)] = None /\
  auth_chain true [s2l "/ping"] (s2l "/ping/x") [bad] = None /\
  auth_chain true [] (s2l "/v1/objects") [password_mw true None st] = Some 403%Z.
Proof. repeat split. Qed.

(** * C53: starting a server never changes the stored credential *)

(** As long as etcd answers the first question: an existing credential stays, and a new
    one is written only with a name and a password. *)
(** Partial.  Full statement: Starting an API server leaves an existing credential as it is, and
    writes a new one only if a name and a password are configured.  It fails in general:
    [C53_init_refuted].  Refuted when the first etcd read fails: the credential is overwritten,
    possibly with an empty one. *)
Theorem C53_init_keeps_partial : forall enable cfg put_fails c, pv_init enable cfg false put_fails (Some c) = Some c.
Proof. exact init_keeps. Qed.
Print Assumptions C53_init_keeps_partial.

(** Partial; the full statement is at [C53_init_keeps_partial]. *)
Theorem C53_init_creates_partial : forall enable cfg gf pf stored c, gf = false ->
  pv_init enable cfg gf pf stored = Some c -> stored = Some c \/
  (stored = None /\ c = cfg /\ cr_user c <> [] /\ cr_pass c <> []).
Proof. exact init_creates. Qed.
Print Assumptions C53_init_creates_partial.

(** Missing: when that question fails, the credential is overwritten; an unconfigured
    server then stores an empty name and password, which from then on are accepted. *)
Theorem C53_init_refuted : exists cfg c, pv_init true cfg true false (Some c) = Some cfg /\ cfg <> c /\
  cr_user cfg = [] /\ cr_pass cfg = [] /\
  accepts (password_mw true (Some ([], [])) (EGet (pv_init true cfg true false (Some c)))) /\
  ~ accepts (password_mw true (Some (cr_user c, cr_pass c)) (EGet (pv_init true cfg true false (Some c)))).
Proof.
  exists (mk_cred [] []), (mk_cred (s2l "admin") (s2l "pw")). split; [reflexivity|]. split; [discriminate|].
  split; [reflexivity|]. split; [reflexivity|]. split; [split; reflexivity|]. intros [H _]. discriminate.
Qed.
Print Assumptions C53_init_refuted.

Example C53_nonvacuous : pv_init true (mk_cred (s2l "a") (s2l "b")) false false None = Some (mk_cred (s2l "a") (s2l "b")).
Proof. reflexivity. Qed.

(** * C33: equal dedup keys mean equal content and layout *)

(** Partial: digests of equal length (as with checksum verification, where they are
    SHA-256 texts), or strategies 0..9.  Then equal keys mean the same storage, unless
    SHA-256 itself collides on the two different texts built here. *)
(** Partial.  Full statement: Two uploads share stored data only if their content digest and their
    storage layout (strategy, shard counts, compression) are the same.  It fails in general:
    [C33_dedup_refuted]. *)
Theorem C33_dedup_partial : forall sha d1 ss1 ds1 ps1 c1 d2 ss2 ds2 ps2 c2,
  length d1 = length d2 \/ (0 <= ss1 < 10 /\ 0 <= ss2 < 10)%Z ->
  unique_hash sha d1 ss1 ds1 ps1 c1 = unique_hash sha d2 ss2 ds2 ps2 c2 ->
  same_storage d1 d2 ss1 ds1 ps1 ss2 ds2 ps2 c1 c2 \/
  unique_text d1 ss1 ds1 ps1 c1 <> unique_text d2 ss2 ds2 ps2 c2.
Proof.
  intros sha d1 ss1 ds1 ps1 c1 d2 ss2 ds2 ps2 c2 Hl H.
  destruct (list_eq_dec ascii_dec (unique_text d1 ss1 ds1 ps1 c1) (unique_text d2 ss2 ds2 ps2 c2)) as [E|E].
  - left. exact (unique_same _ _ _ _ _ _ _ _ _ _ Hl E).
  - right. exact E.
Qed.
Print Assumptions C33_dedup_partial.

(** And the same storage gives the same key. *)
Theorem C33_dedup_complete : forall sha d1 ss1 ds1 ps1 c1 d2 ss2 ds2 ps2 c2,
  same_storage d1 d2 ss1 ds1 ps1 ss2 ds2 ps2 c1 c2 ->
  unique_hash sha d1 ss1 ds1 ps1 c1 = unique_hash sha d2 ss2 ds2 ps2 c2.
Proof.
  intros sha d1 ss1 ds1 ps1 c1 d2 ss2 ds2 ps2 c2 (-> & -> & -> & [->|[-> ->]]); reflexivity.
Qed.
Print Assumptions C33_dedup_complete.

(** Missing: nothing separates digest and strategy (both are client supplied). *)
Theorem C33_dedup_refuted : exists d1 ss1 d2 ss2, d1 <> d2 /\ ss1 <> ss2 /\
  (-128 <= ss1 <= 127 /\ -128 <= ss2 <= 127)%Z /\
  forall sha ds ps c, unique_hash sha d1 ss1 ds ps c = unique_hash sha d2 ss2 ds ps c.
Proof.
  exists (s2l "ab1"), 1%Z, (s2l "ab"), 11%Z. split; [discriminate|]. split; [discriminate|]. split; [lia|]. reflexivity.
Qed.
Print Assumptions C33_dedup_refuted.

Example C33_nonvacuous : unique_text (s2l "ab") 1 4 2 true = s2l "ab1 4 2 true" /\
  unique_text (s2l "ab") 2 4 2 false = s2l "ab2 0 0 false".
Proof. split; reflexivity. Qed.

(** * C54: the bucket decides the storage layout *)

(** A bucket with a strategy of its own overrides what the client asked for, whatever
    that was: strategy, data shards (copies) and parity; compression can only be added. *)
Theorem C54_bucket_decides : forall b cf v, (0 < p_strategy b)%Z ->
  let w := make_version b cf v in
  l_strategy w = p_strategy b /\ l_data w = p_data b /\ l_compress w = (p_compress b || l_compress v)%bool /\
  l_parity w = if (p_strategy b =? multi_rep)%Z then l_parity v else p_parity b.
Proof. exact make_version_policy. Qed.
Print Assumptions C54_bucket_decides.

Example C54_nonvacuous : make_version (mk_policy true 1 6 3) (mk_defaults 4 2 3) (mk_layout 2 0 0 false) = mk_layout 1 6 3 true /\
  make_version (mk_policy false 0 6 3) (mk_defaults 4 2 3) (mk_layout 2 0 0 false) = mk_layout 2 3 0 false.
Proof. split; reflexivity. Qed.

(** * C34: locating an object is complete *)

(** A server answers the question for shard [i] exactly when it stores that shard, and
    its answer names that shard. *)
Theorem C34_answer : forall s hash key i r, ~ In "."%char hash -> ~ In "#"%char hash -> ~ In "#"%char key ->
  locate_answer (ds_has s) (ds_ip s) (locate_ask hash i key) = Some r <->
  ds_has s (shard_file hash i) = true /\ r = (key, ds_ip s ++ "#"%char :: print_N (N.of_nat i)).
Proof. exact answer_iff. Qed.
Print Assumptions C34_answer.

(** Every address reported is that of a server storing that shard, however the answers
    are ordered, repeated and batched; and the wait never panics. *)
Theorem C34_sound : forall svs hash key shards evs, plain hash key svs -> (Z.of_nat shards <= int64_max)%Z ->
  answered svs hash key shards evs ->
  locate_object shards evs <> LPanic /\
  forall l, locate_object shards evs = LFound l ->
    length l = shards /\ forall i, i < shards -> nth i l [] = [] \/ at_server svs hash (nth i l []) i.
Proof.
  intros svs hash key shards evs Hp Hs Ha.
  assert (Hg : Forall (good_raw svs hash key shards) (answers evs)) by (apply Forall_forall; exact Ha).
  split; [apply (locate_no_panic svs hash key shards Hp Hs evs Hg)|].
  intros l H. destruct (locate_found svs hash key shards Hp Hs evs l Hg H) as (pre & post & E & Hf & _).
  split; [apply Hf|]. intros i Hi. apply (filled_sound svs hash key shards Hp Hs pre l i); auto.
  rewrite E in Hg. apply Forall_app in Hg. apply Hg.
Qed.
Print Assumptions C34_sound.

(** Partial: no shard lies on two servers and no answer arrives twice.  Then success
    means every shard is located. *)
(** Partial.  Full statement: When locating reports success, every shard of the object has a known
    server holding that shard.  It fails in general: [C34_complete_refuted]. *)
Theorem C34_complete_partial : forall svs hash key shards evs l, plain hash key svs -> (Z.of_nat shards <= int64_max)%Z ->
  answered svs hash key shards evs ->
  (forall i ip ip', at_server svs hash ip i -> at_server svs hash ip' i -> ip = ip') ->
  NoDup (answers evs) ->
  locate_object shards evs = LFound l ->
  length l = shards /\ forall i, i < shards -> at_server svs hash (nth i l []) i.
Proof.
  intros svs hash key shards evs l Hp Hs Ha Hu Hn.
  apply (locate_complete svs hash key shards Hp Hs evs l); auto. apply Forall_forall. exact Ha.
Qed.
Print Assumptions C34_complete_partial.

(** As many answers as shards before anything else end the wait with success. *)
Theorem C34_live : forall svs hash key shards batches, plain hash key svs -> (Z.of_nat shards <= int64_max)%Z ->
  answered svs hash key shards (map LBatch batches) -> shards <= length (List.concat batches) ->
  exists l, locate_object shards (map LBatch batches) = LFound l.
Proof.
  intros svs hash key shards batches Hp Hs Ha Hle. apply (locate_live svs hash key shards Hp Hs); auto.
  apply Forall_forall. intros raw Hr. apply Ha. unfold answers. rewrite map_map, map_id. exact Hr.
Qed.
Print Assumptions C34_live.

Definition sv_a : dserver := mk_dserver (s2l "a:1") (fun f => str_eqb f (s2l "ff.0")).
Definition sv_b : dserver := mk_dserver (s2l "b:1") (fun f => str_eqb f (s2l "ff.0")).
Definition sv_c : dserver := mk_dserver (s2l "c:1") (fun f => str_eqb f (s2l "ff.1")).

(** Missing: when two servers hold shard 0, their two answers count for two shards, and
    the object is reported as located though shard 1 lies nowhere; the upload that asked
    then skips storing the data. *)
Theorem C34_complete_refuted : exists svs hash key evs l, plain hash key svs /\ answered svs hash key 2 evs /\
  NoDup (answers evs) /\ locate_object 2 evs = LFound l /\
  forall ip, ~ at_server svs hash ip 1.
Proof.
  exists [sv_a; sv_b], (s2l "ff"), (s2l "k"), [LBatch [s2l "a:1#0"; s2l "b:1#0"]], [s2l "b:1"; []].
  assert (Hp : plain (s2l "ff") (s2l "k") [sv_a; sv_b]).
  { repeat split; try (cbn; intuition discriminate); destruct H as [<-|[<-|[]]]; cbn; intuition discriminate. }
  split; [exact Hp|]. split.
  { intros raw Hr. cbn in Hr. destruct Hr as [<-|[<-|[]]]; [exists sv_a, 0|exists sv_b, 0];
      (split; [cbn; auto|split; [lia|reflexivity]]). }
  split; [repeat constructor; cbn; intuition discriminate|]. split; [reflexivity|].
  intros ip (s & [<-|[<-|[]]] & _ & H); discriminate.
Qed.
Print Assumptions C34_complete_refuted.

Example C34_nonvacuous : let evs := [LBatch []; LBatch [s2l "c:1#1"]; LBatch [s2l "a:1#0"]; LTimeout] in
  plain (s2l "ff") (s2l "k") [sv_a; sv_c] /\ answered [sv_a; sv_c] (s2l "ff") (s2l "k") 2 evs /\ NoDup (answers evs) /\
  locate_object 2 evs = LFound [s2l "a:1"; s2l "c:1"].
Proof.
  split.
  { repeat split; try (cbn; intuition discriminate); destruct H as [<-|[<-|[]]]; cbn; intuition discriminate. }
  split.
  { intros raw Hr. cbn in Hr. destruct Hr as [<-|[<-|[]]]; [exists sv_c, 1|exists sv_a, 0];
      (split; [cbn; auto|split; [lia|reflexivity]]). }
  split; [repeat constructor; cbn; intuition discriminate|reflexivity].
Qed.
