(** * Sessions, credentials and answers of the admin server: theorems C131 to C134 *)
From Coq Require Import ZArith Lia.
From Verif Require Import Str_Model Str_Proofs Rpc_Model Console_Model Console_Spec Console_Proofs.
Local Open Scope list_scope.

(** ** Concrete data for the examples *)

Definition addr1 : str := s2l "10.0.0.1:80"%string.
Definition secret : str := s2l "secret"%string.
Definition known (s : str) (id : str) : option str := if str_eqb id (s2l "m1"%string) then Some s else None.
Definition world (apis : list str) (t : told) : env :=
  mk_env apis 5 (known addr1) (known addr1) (fun _ => None) (fun _ => true)
    (fun op tok => Some (if str_eqb tok secret then expected op else 403%Z)) (fun _ => t) true None None.
Definition ask (r : route) (h : str) : req := mk_req r h None BOk (s2l "m1"%string) (s2l "m1"%string) [].

(** ** C131: a request acts with the credential it carries *)

Theorem C131_own_credential : forall e q addr op t, In (CApi addr op t) (fst (handle e q)) -> t = q_header q.
Proof.
  intros e q addr op t H. apply handle_calls in H. apply handler_calls in H. exact (proj1 H).
Qed.
Print Assumptions C131_own_credential.

(** Whatever cookies a client has collected, each of its requests is handled as if it came
    alone and without one. *)
Theorem C131_alone : forall fits jar qs,
  fst (browse fits jar qs) = map (fun eq => handle (fst eq) (with_cookie (snd eq) None)) qs.
Proof. intros fits jar qs. exact (browse_alone fits qs jar). Qed.
Print Assumptions C131_alone.

Example C131_case :
  let w := world [addr1] TError in
  fst (handle w (with_cookie (ask RUpload secret) (Some (s2l "other"%string)))) = [CApi addr1 APut secret] /\
  map status (fst (browse (fun _ => true) (Some secret) [(w, ask RUpload secret); (w, ask RCreate (s2l "bad"%string)); (w, ask RDelete [])])) =
    [201; 403; 403]%Z.
Proof. vm_compute. split; reflexivity. Qed.

(** ** C132: logging in and out *)

(** Wanted: after a login the client's requests are let through, until it logs out. *)

(** Violation: however successful the login, a request without the header is refused. *)
Theorem C132_login_refuted : forall fits jar e1 q1 e2 q2 d1 d2,
  q_route q1 = RLogin -> fst (browse fits jar [(e1, q1); (e2, q2)]) = [d1; d2] -> success d1 ->
  guarded (q_route q2) = true -> q_header q2 = [] ->
  status d2 = 403%Z /\ fst d2 = [].
Proof.
  intros fits jar e1 q1 e2 q2 d1 d2 _ H _ G Hh. rewrite browse_alone in H. cbn [map fst snd] in H.
  injection H as _ <-. rewrite handle_cookie, handle_eq, G, Hh. split; reflexivity.
Qed.
Print Assumptions C132_login_refuted.

(** Violation: after a logout the cookie holds the token of the client. *)
Theorem C132_logout_refuted : forall fits jar e q,
  q_route q = RLogout -> fits (q_header q) = true -> snd (browse fits jar [(e, q)]) = Some (q_header q).
Proof.
  intros fits jar e q _ F. cbn [browse snd]. unfold cookie_after, with_cookie. cbn [q_cookie q_header].
  destruct jar as [t|]; [|rewrite F; reflexivity].
  destruct (str_eqb t (q_header q)) eqn:E; [apply str_eqb_eq in E; subst; reflexivity|rewrite F; reflexivity].
Qed.
Print Assumptions C132_logout_refuted.

(** What does hold: with an accepted credential in its header a request is let through,
    before a login, after it and after a logout. *)
(** Partial.  Full statement: After a successful login the requests of the client are let through,
    and after a logout its cookie holds no credential.  It fails in general: [C132_login_refuted],
    [C132_logout_refuted].  Refuted: the session of a login never lets a request through; a logout
    leaves the token in the cookie. *)
Theorem C132_header_partial : forall fits jar before e q op d,
  proper q -> operation (q_route q) = Some op -> e_apis e <> [] ->
  e_http e op (q_header q) = Some (done_status op) ->
  nth_error (fst (browse fits jar (before ++ [(e, q)]))) (List.length before) = Some d -> success d.
Proof.
  intros fits jar before e q op d P O A H N. rewrite browse_alone, map_app, nth_error_app2 in N by (rewrite map_length; lia).
  rewrite map_length, Nat.sub_diag in N. cbn [map nth_error fst snd] in N. injection N as <-.
  rewrite handle_cookie, (handle_proper e q P). destruct (select_some e A) as (addr & S & _).
  unfold success. rewrite (proj2 (handler_api e q (q_header q) op addr O S)), H.
  apply reported_ok. eexists. split; [reflexivity|destruct op; reflexivity].
Qed.
Print Assumptions C132_header_partial.

Example C132_case :
  let w := world [addr1] TError in
  let b := browse (fun _ => true) None [(w, ask RLogin secret); (w, ask RDownload []); (w, ask RLogout secret); (w, ask RDownload secret)] in
  map status (fst b) = [200; 403; 200; 200]%Z /\ snd b = Some secret /\ proper (ask RDownload secret).
Proof. vm_compute. split; [reflexivity|]. split; [reflexivity|]. split; [discriminate|reflexivity]. Qed.

(** ** C133: nothing is changed without a valid credential *)

(** Without any credential the guarded routes do nothing. *)
Theorem C133_guarded : forall e q, guarded (q_route q) = true -> q_header q = [] ->
  handle e q = ([], Some [WBody 403]) /\ status (handle e q) = 403%Z.
Proof. intros e q G H. rewrite handle_eq, G, H. split; reflexivity. Qed.
Print Assumptions C133_guarded.

(** Every route that changes anything is guarded. *)
Theorem C133_changes_guarded : forall e q c, In c (fst (handle e q)) -> changing c ->
  guarded (q_route q) = true /\ q_header q <> [].
Proof.
  intros e q c H Hc. pose proof (handler_calls e q _ c (handle_calls e q c H)) as K.
  assert (G : guarded (q_route q) = true).
  { destruct c as [addr op t|addr cmd|addr|addr|]; cbn [changing] in Hc; try contradiction.
    - destruct K as [_ [[O _]|(_ & -> & _)]]; [|destruct Hc].
      destruct (q_route q); try discriminate; try reflexivity. injection O as <-. destruct Hc.
    - destruct K as [[C _]|(R & _)]; [|rewrite R; reflexivity].
      unfold commanded in C. destruct (q_route q); try discriminate; reflexivity. }
  split; [exact G|]. intros E. rewrite (proj1 (C133_guarded e q G E)) in H. destruct H.
Qed.
Print Assumptions C133_changes_guarded.

(** Changes through API servers that check credentials fail without a valid one. *)
(** Partial.  Full statement: Requests whose credential the API servers refuse change neither
    objects nor clusters and learn nothing about the servers.  It fails in general:
    [C133_commands_refuted], [C133_migration_refuted], [C133_config_refuted].  Refuted: any text is
    enough to migrate slots and to make servers join and leave; configurations are told without any. *)
Theorem C133_api_partial : forall accepts e q addr op t,
  checking accepts e -> accepts (q_header q) = false ->
  In (CApi addr op t) (fst (handle e q)) -> op <> AConfig -> ~ success (handle e q).
Proof.
  intros accepts e q addr op t HC HA HI HO HS.
  pose proof (handler_calls e q _ _ (handle_calls e q _ HI)) as [_ [[O A]|(_ & E & _)]]; [|contradiction].
  destruct (handle_cases e q) as [E|E]; [|rewrite E in HI; destruct HI].
  assert (NE : e_apis e <> []) by (intros Z0; rewrite Z0 in A; destruct A).
  destruct (select_some e NE) as (x & S & _).
  unfold success in HS. rewrite E, (proj2 (handler_api e q _ op x O S)) in HS.
  apply reported_ok in HS as (st & E1 & H1). destruct (HC op (q_header q) HA HO) as (st' & E2 & H2 & _). congruence.
Qed.
Print Assumptions C133_api_partial.

(** Violation: any text that is not empty suffices to change the clusters, though the API
    servers would refuse it. *)
Theorem C133_commands_refuted : forall accepts e q cmd addr,
  checking accepts e -> accepts (q_header q) = false -> proper q ->
  commanded q = Some cmd -> about e q = Some addr -> e_told e cmd = TSays true ->
  fst (handle e q) = [CCmd addr cmd] /\ status (handle e q) = 200%Z.
Proof.
  intros accepts e q cmd addr _ _ P C A T. rewrite (handle_proper e q P). unfold commanded, about in *.
  unfold handler, status. destruct (q_route q); try discriminate; injection C as <-;
    unfold leave_group, join_group, data_command; rewrite A; unfold command_to; rewrite T; split; reflexivity.
Qed.
Print Assumptions C133_commands_refuted.

Theorem C133_migration_refuted : forall accepts e q src dest,
  checking accepts e -> accepts (q_header q) = false -> proper q -> q_route q = RMigration ->
  e_meta e (q_sid q) = Some src -> e_meta e (q_other q) = Some dest -> src <> [] -> dest <> [] -> e_split e dest = true ->
  fst (handle e q) = [CCmd src (Migrate (q_slots q) dest)].
Proof.
  intros accepts e q src dest _ _ P R Hs Hd Ns Nd Sp. rewrite (handle_proper e q P). unfold handler. rewrite R.
  unfold start_migration. rewrite Hs, Hd. destruct src as [|x src], dest as [|y dest]; try congruence. rewrite Sp. reflexivity.
Qed.
Print Assumptions C133_migration_refuted.

(** Violation: the configuration of any server is given to anyone. *)
Theorem C133_config_refuted : forall e q addr,
  q_route q = RConfig -> q_header q = [] -> q_bound q = BOk -> e_config e = true ->
  e_meta e (q_sid q) = Some addr \/ (e_meta e (q_sid q) = None /\ e_data e (q_sid q) = Some addr) ->
  fst (handle e q) = [CConfig addr] /\ status (handle e q) = 200%Z.
Proof.
  intros e q addr R H Bd C A. rewrite handle_eq, R, H, Bd. cbn [guarded andb reads_params]. unfold handler. rewrite R.
  unfold server_config, config_of. destruct A as [A|[A1 A2]]; [rewrite A|rewrite A1, A2]; cbn [fst]; rewrite C; split; reflexivity.
Qed.
Print Assumptions C133_config_refuted.

Example C133_case :
  let w := world [addr1] (TSays true) in
  let bad := s2l "nonsense"%string in
  checking (fun t => str_eqb t secret) w /\ proper (ask RLeave bad) /\
  fst (handle w (ask RLeave bad)) = [CCmd addr1 LeaveCluster] /\
  fst (handle w (ask RMigration bad)) = [CCmd addr1 (Migrate [] addr1)] /\
  status (handle w (ask RUpload bad)) = 403%Z /\ fst (handle w (ask RUpload bad)) = [CApi addr1 APut bad] /\
  handle w (ask RConfig []) = ([CConfig addr1], Some [WBody 200; WStatus 200]).
Proof.
  cbv zeta. split.
  { intros op t H _. exists 403%Z. cbn [world e_http]. rewrite H. split; [reflexivity|]. split; [reflexivity|lia]. }
  split; [split; [discriminate|reflexivity]|]. vm_compute. repeat split.
Qed.

(** ** C134: the answer tells what became of the request *)

(** Operations of the API server: asked for once, of a registered server; reported as done
    if and only if the answer was a success; refusals keep their status. *)
Theorem C134_operations : forall e q op, proper q -> operation (q_route q) = Some op -> e_apis e <> [] ->
  (exists addr, In addr (e_apis e) /\ fst (handle e q) = [CApi addr op (q_header q)]) /\
  (success (handle e q) <-> exists st, e_http e op (q_header q) = Some st /\ is_ok st = true) /\
  (forall st, e_http e op (q_header q) = Some st -> is_ok st = false -> status (handle e q) = st) /\
  (e_http e op (q_header q) = Some (done_status op) -> status (handle e q) = if (match op with APut => true | _ => false end) then 201 else 200)%Z /\
  (e_http e op (q_header q) = None -> status (handle e q) = 500%Z).
Proof.
  intros e q op P O A. rewrite (handle_proper e q P). destruct (select_some e A) as (addr & S & I0).
  destruct (handler_api e q (q_header q) op addr O S) as [E1 E2]. unfold success. rewrite E2.
  split; [exists addr; split; [exact I0|exact E1]|]. split; [apply reported_ok|]. split; [|split].
  - intros st -> H. unfold reported. destruct (Z.eqb_spec st (expected op)) as [->|]; [destruct op; discriminate H|reflexivity].
  - intros ->. destruct op; reflexivity.
  - intros ->. reflexivity.
Qed.
Print Assumptions C134_operations.

Theorem C134_no_api : forall e q op, proper q -> operation (q_route q) = Some op -> e_apis e = [] ->
  fst (handle e q) = [] /\ status (handle e q) = 500%Z.
Proof.
  intros e q op P O A. rewrite (handle_proper e q P). unfold handler, status, via_api, select_api. rewrite A.
  destruct (q_route q); try discriminate; split; reflexivity.
Qed.
Print Assumptions C134_no_api.

(** Commands: given once, to the server named in the request alone, and reported as done if
    and only if that server says so.  Missing: [LeaveGroup], see below. *)
Theorem C134_commands_partial : forall e q cmd, proper q -> commanded q = Some cmd ->
  match about e q with
  | None => fst (handle e q) = [] /\ status (handle e q) = 400%Z
  | Some addr => fst (handle e q) = [CCmd addr cmd] /\
      (cmd <> LeaveGroup -> (success (handle e q) <-> e_told e cmd = TSays true))
  end.
Proof.
  intros e q cmd P C. rewrite (handle_proper e q P). unfold commanded, about, handler, success, status in *.
  destruct (q_route q); try discriminate; injection C as <-; unfold leave_group, join_group, data_command;
    destruct (_ e (q_sid q)) as [addr|]; try (split; reflexivity); (split; [reflexivity|]); intros N; try congruence;
    unfold command_to; cbn [snd]; destruct (e_told e _) as [|[|]]; (split; [|]); intros H; try reflexivity; try discriminate H.
Qed.
Print Assumptions C134_commands_partial.

Theorem C134_migration : forall e q, proper q -> q_route q = RMigration ->
  (exists src dest, e_meta e (q_sid q) = Some src /\ e_meta e (q_other q) = Some dest /\
     fst (handle e q) = [CCmd src (Migrate (q_slots q) dest)] /\
     (success (handle e q) <-> e_told e (Migrate (q_slots q) dest) = TSays true)) \/
  (fst (handle e q) = [] /\ ~ success (handle e q)).
Proof.
  intros e q P R. rewrite (handle_proper e q P). unfold handler, success, status. rewrite R. unfold start_migration.
  destruct (e_meta e (q_sid q)) as [[|x src]|], (e_meta e (q_other q)) as [[|y dest]|]; try (right; split; [reflexivity|discriminate]; fail).
  destruct (e_split e (y :: dest)); [|right; split; [reflexivity|discriminate]].
  left. exists (x :: src), (y :: dest). split; [reflexivity|]. split; [reflexivity|]. split; [reflexivity|].
  unfold command_to. cbn [snd]. destruct (e_told e _) as [|[|]]; split; intros H; try reflexivity; discriminate H.
Qed.
Print Assumptions C134_migration.

(** A configuration: asked of the server named in the request alone, shown if and only if that
    server gives one. *)
Theorem C134_config : forall e q, q_route q = RConfig -> q_header q = [] -> q_bound q = BOk ->
  match (match e_meta e (q_sid q) with Some addr => Some addr | None => e_data e (q_sid q) end) with
  | Some addr => fst (handle e q) = [CConfig addr] /\ (success (handle e q) <-> e_config e = true)
  | None => e_api e (q_sid q) = None -> fst (handle e q) = [] /\ ~ success (handle e q)
  end.
Proof.
  intros e q R H Bd. rewrite handle_eq, R, H, Bd. cbn [guarded andb reads_params]. unfold handler. rewrite R. unfold server_config, config_of, success, status.
  destruct (e_meta e (q_sid q)) as [addr|]; [|destruct (e_data e (q_sid q)) as [addr|]].
  - split; [reflexivity|]. cbn [snd]. destruct (e_config e); split; intros X; try reflexivity; discriminate X.
  - split; [reflexivity|]. cbn [snd]. destruct (e_config e); split; intros X; try reflexivity; discriminate X.
  - intros ->. split; [reflexivity|discriminate].
Qed.
Print Assumptions C134_config.

(** Violation: a metadata server that refuses to leave its group is reported to have left. *)
Theorem C134_leave_refuted : forall e q addr, proper q -> q_route q = RLeaveGroup -> e_meta e (q_sid q) = Some addr ->
  e_told e LeaveGroup = TSays false -> status (handle e q) = 200%Z.
Proof.
  intros e q addr P R A T. rewrite (handle_proper e q P). unfold handler, status. rewrite R. unfold leave_group.
  rewrite A, T. reflexivity.
Qed.
Print Assumptions C134_leave_refuted.

Example C134_case :
  let w := world [addr1] (TSays false) in
  status (handle w (ask RLeaveGroup secret)) = 200%Z /\ status (handle w (ask RJoinGroup secret)) = 400%Z /\
  status (handle w (ask RMigration secret)) = 400%Z /\ status (handle w (ask RCreate secret)) = 200%Z /\
  status (handle (world [] TError) (ask RCreate secret)) = 500%Z /\ about w (ask RLeave secret) = Some addr1 /\
  status (handle w (mk_req RLeave secret None BOk (s2l "zz"%string) [] [])) = 400%Z.
Proof. vm_compute. repeat split. Qed.
