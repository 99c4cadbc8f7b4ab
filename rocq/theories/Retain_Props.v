From Verif Require Import Str_Model Str_Spec Meta_Model Meta_Spec Meta_Proofs Meta_History Meta_Ids Meta_Props Retain_Model Retain_Proofs.
From stdpp Require Import gmap.

(** * C31: version retention keeps the newest versions *)

(** A version as an upload makes it: hash and unique id are set. *)
Definition uploadable (vs : list version) : Prop :=
  Forall (fun v => v_hash v <> [] /\ v_uid v <> []) vs /\ NoDup (map v_uid vs) /\
  (2 * N.of_nat (length vs) + 2 < 2 ^ 63)%N.

(** Without versioning (or with a limit of one) exactly the newest version remains after
    every number of uploads one after the other. *)
Theorem C31_keep_one : forall versioning remains id m vs, id <> ([] : str) ->
  versioning = false \/ (remains <= 1)%Z -> vs <> [] -> uploadable vs ->
  forall n, has_version (uploads versioning remains id m vs db_empty) id n <-> n = N.of_nat (length vs).
Proof.
  intros vn rem id m vs Hid Hp Hne (Hw & Hn & Hl) n.
  pose proof (keep_one vn rem id m Hid vs Hp Hne Hw Hn Hl) as W.
  rewrite (window_has id _ _ _ n W). assert (0 < length vs)%nat by (destruct vs; [done|cbn; lia]). lia.
Qed.
Print Assumptions C31_keep_one.

(** Partial: up to ten uploads (the versions present before each have one digit).  Then
    exactly the newest [remains] versions remain. *)
(** Partial.  Full statement: Storing a new version in a bucket that keeps at most R versions
    removes only the oldest one when the limit is exceeded, so the newest R versions always remain;
    without versioning only the newest remains.  It fails in general: [C31_keep_newest_refuted],
    [C31_switch_off_refuted], [C31_concurrent_refuted].  Refuted: the eleventh upload with limit 2
    removes version 10 instead of 9; switching versioning off; concurrent uploads. *)
Theorem C31_keep_newest_partial : forall remains id m vs, id <> ([] : str) -> (1 <= remains)%Z ->
  vs <> [] -> (length vs <= 10)%nat -> uploadable vs ->
  forall n, has_version (uploads true remains id m vs db_empty) id n <->
    (N.of_nat (length vs) - Z.to_N remains < n <= N.of_nat (length vs))%N.
Proof.
  intros rem id m vs Hid Hr Hne Hten (Hw & Hn & Hl) n.
  pose proof (keep_window true rem id m Hid vs eq_refl Hr Hne Hten Hw Hn) as W.
  by rewrite (window_has id _ _ _ n W).
Qed.
Print Assumptions C31_keep_newest_partial.

(** One upload after any history of calls: a number above all earlier ones is added,
    and nothing else changes but the loss, when the rule of the code says so, of the
    version reported as first. *)
Theorem C31_put_exact : forall B cs id v versioning remains m,
  history B (cmds cs) -> (B + N.of_nat (length cs) + 1 < 2 ^ 63)%N -> id <> ([] : str) ->
  v_hash v <> [] /\ v_uid v <> [] -> Forall (fun c => ~ uses_id (v_uid v) c) cs ->
  let d := run_calls db_empty cs in
  (exists n, has_version d id n) ->
  exists n total, (forall k, has_version d id k -> (k < n)%N) /\
    (exists l, put_read id d = Some (total, Z.of_N (first_version_number id d), l)) /\
    forall k, has_version (put versioning remains id m d v) id k <->
      (k = n \/ has_version d id k) /\
      ~ (((0 <? Z.of_nat total)%Z && negb versioning) || (remains <=? Z.of_nat total)%Z = true /\ k = first_version_number id d).
Proof. intros B cs id v vn rem m. exact (put_exact B cs id v vn rem m). Qed.
Print Assumptions C31_put_exact.

(** Partial: as long as all numbers present have the same number of digits, what is lost
    is the oldest version. *)
(** Partial; the full statement is at [C31_keep_newest_partial]. *)
Theorem C31_oldest_removed_partial : forall B cs id v versioning remains m k,
  history B (cmds cs) -> (B + N.of_nat (length cs) + 1 < 2 ^ 63)%N -> id <> ([] : str) ->
  v_hash v <> [] /\ v_uid v <> [] -> Forall (fun c => ~ uses_id (v_uid v) c) cs ->
  let d := run_calls db_empty cs in
  (exists n, has_version d id n) -> (forall n, has_version d id n -> (10 ^ k <= n < 10 ^ (k + 1))%N) ->
  forall n, has_version d id n -> ~ has_version (put versioning remains id m d v) id n ->
  forall n', has_version d id n' -> (n <= n')%N.
Proof.
  intros B cs id v vn rem m k H HK Hid Hw Hf d He Hd n Hn Hno n' Hn'.
  destruct (put_exact B cs id v vn rem m H HK Hid Hw Hf He) as (nn & total & H1 & H2 & H3). fold d in H3.
  destruct (latest_number B _ id k H He Hd) as (HL & _).
  assert (n = first_version_number id d) as ->.
  { destruct (N.eq_dec n (first_version_number id d)) as [E|E]; [done|]. destruct Hno. apply H3. split; [by right|]. by intros [_ ?]. }
  by apply HL.
Qed.
Print Assumptions C31_oldest_removed_partial.

Local Notation "'a'" := (s2l "obj" : str) (only parsing).
Local Ltac vc := vm_compute; repeat split; done.

Definition vers_of (us : list str) : list version := map (fun u => ver (s2l "h") u 1 0) us.
Definition us11 : list str := [s2l "a"; s2l "b"; s2l "c"; s2l "d"; s2l "e"; s2l "f"; s2l "g"; s2l "h"; s2l "i"; s2l "j"; s2l "k"].

(** Missing: with a limit of two, the eleventh upload removes version 10 (the text "10"
    comes before "9"): the newest but one is lost, the older one stays. *)
Theorem C31_keep_newest_refuted : exists vs, uploadable vs /\ length vs = 11%nat /\
  let d := uploads true 2 a (md 1) vs db_empty in
  has_version d a 9 /\ ~ has_version d a 10 /\ has_version d a 11.
Proof.
  exists (vers_of us11). split; [|split; [done|]].
  - split_and!; [repeat constructor; done| |done]. change (map v_uid (vers_of us11)) with us11.
    apply (bool_decide_unpack _). vm_compute. done.
  - cbv zeta. split_and!; [vc| |vc]. intros X. apply X. vc.
Qed.
Print Assumptions C31_keep_newest_refuted.

(** Missing: a bucket whose versioning is switched off keeps all but one of the versions
    it had. *)
Theorem C31_switch_off_refuted : exists vs v, uploadable (vs ++ [v]) /\
  let d := put false 0 a (md 1) (uploads true 5 a (md 1) vs db_empty) v in
  has_version d a 2 /\ has_version d a 3 /\ has_version d a 4.
Proof.
  exists (vers_of [s2l "a"; s2l "b"; s2l "c"]), (ver (s2l "h") (s2l "d") 1 0). split.
  - split_and!; [repeat constructor; done| |done].
    apply (bool_decide_unpack _). vm_compute. done.
  - vc.
Qed.
Print Assumptions C31_switch_off_refuted.

(** Missing: two uploads at once both remove the same version, and two remain where one
    should. *)
Theorem C31_concurrent_refuted : exists vs v w, uploadable (vs ++ [v; w]) /\
  let d := put_two false 0 a (md 1) v w (uploads false 0 a (md 1) vs db_empty) in
  has_version d a 2 /\ has_version d a 3.
Proof.
  exists (vers_of [s2l "a"]), (ver (s2l "h") (s2l "b") 1 0), (ver (s2l "h") (s2l "c") 1 0). split.
  - split_and!; [repeat constructor; done| |done].
    apply (bool_decide_unpack _). vm_compute. done.
  - vc.
Qed.
Print Assumptions C31_concurrent_refuted.

Example C31_nonvacuous : let vs := vers_of [s2l "a"; s2l "b"; s2l "c"; s2l "d"] in uploadable vs /\
  let d := uploads true 2 a (md 1) vs db_empty in
  get_ver a 2 d = None /\ v_uid <$> get_ver a 3 d = Some (s2l "c") /\ v_uid <$> get_ver a 4 d = Some (s2l "d") /\
  put_read a d = Some (2%nat, 3%Z, 4%Z) /\ v_uid <$> get_ver a 4 (uploads false 9 a (md 1) vs db_empty) = Some (s2l "d") /\
  get_ver a 3 (uploads false 9 a (md 1) vs db_empty) = None.
Proof.
  cbv zeta. split.
  - split_and!; [repeat constructor; done| |done]. apply (bool_decide_unpack _). vm_compute. done.
  - vc.
Qed.
