(** Lemmas about the admin server's handlers. *)
From Coq Require Import ZArith Lia.
From Verif Require Import Str_Model Str_Proofs Rpc_Model Console_Model Console_Spec.
Local Open Scope list_scope.

Lemma token_is_header : forall q, auth_token (save_token q) (q_header q) = q_header q.
Proof.
  intros q. unfold auth_token, save_token. destruct (q_cookie q) as [t|]; [|reflexivity].
  destruct (str_eqb t (q_header q)) eqn:E; [apply str_eqb_eq in E; exact E|reflexivity].
Qed.

Lemma handle_eq : forall e q, handle e q =
  if guarded (q_route q) && str_eqb (q_header q) [] then ([], Some [WBody 403])
  else if reads_params (q_route q)
  then match q_bound q with
       | BOk => handler e q (q_header q)
       | BInvalid => ([], Some r_bad_request)
       | BBroken => ([], Some (fail_err GOther))
       end
  else handler e q (q_header q).
Proof. intros e q. unfold handle. rewrite token_is_header. reflexivity. Qed.

Lemma handler_cookie : forall e q c t, handler e (with_cookie q c) t = handler e q t.
Proof. intros e [r h c0 b s o l] c t. destruct r; reflexivity. Qed.

Lemma handle_cookie : forall e q c, handle e (with_cookie q c) = handle e q.
Proof. intros e q c. rewrite !handle_eq, handler_cookie. reflexivity. Qed.

(** The calls of a handler. *)
Lemma handler_calls : forall e q t c, In c (fst (handler e q t)) ->
  match c with
  | CApi addr op t' => t' = t /\ (operation (q_route q) = Some op /\ In addr (e_apis e) \/
      q_route q = RConfig /\ op = AConfig /\ e_api e (q_sid q) = Some addr)
  | CCmd addr cmd =>
      (commanded q = Some cmd /\ about e q = Some addr) \/
      (q_route q = RMigration /\ e_meta e (q_sid q) = Some addr /\
       exists dest, e_meta e (q_other q) = Some dest /\ cmd = Migrate (q_slots q) dest)
  | _ => True
  end.
Proof.
  intros e q t c H.
  assert (V : forall op ok, In c (fst (via_api e op t ok)) -> exists addr, c = CApi addr op t /\ In addr (e_apis e)).
  { intros op ok Hc. unfold via_api, select_api in Hc. destruct (e_apis e) as [|a l] eqn:E; [destruct Hc|].
    destruct (nth_error (a :: l) (e_pick e mod List.length (a :: l))) as [x|] eqn:En; [|destruct Hc].
    destruct Hc as [<-|[]]. exists x. split; [reflexivity|]. apply nth_error_In with (1 := En). }
  unfold handler in H. destruct (q_route q) eqn:R; cbn [operation];
    try (apply V in H as (addr & -> & Ha); split; [reflexivity|left; split; [reflexivity|exact Ha]]);
    try (destruct H as [<-|[]]; exact I); try (destruct H).
  - unfold start_migration in H.
    destruct (e_meta e (q_sid q)) as [[|x src]|], (e_meta e (q_other q)) as [[|y dest]|]; try (destruct H; fail).
    destruct (e_split e (y :: dest)); [|destruct H]. destruct H as [<-|[]].
    right. split; [reflexivity|]. split; [reflexivity|]. eexists. split; reflexivity.
  - unfold get_peers in H. destruct (e_meta e (q_sid q)); [|destruct H]. destruct H as [<-|[]]. exact I.
  - unfold leave_group in H. destruct (e_meta e (q_sid q)) eqn:E; [|destruct H]. destruct H as [<-|[]].
    left. unfold commanded, about. rewrite R. split; [reflexivity|exact E].
  - unfold join_group in H. destruct (e_meta e (q_sid q)) eqn:E; [|destruct H]. destruct H as [<-|[]].
    left. unfold commanded, about. rewrite R. split; [reflexivity|exact E].
  - unfold get_config in H. destruct (e_meta e (q_sid q)); [|destruct H]. destruct H as [<-|[]]. exact I.
  - unfold data_command in H. destruct (e_data e (q_sid q)) eqn:E; [|destruct H]. destruct H as [<-|[]].
    left. unfold commanded, about. rewrite R. split; [reflexivity|exact E].
  - unfold data_command in H. destruct (e_data e (q_sid q)) eqn:E; [|destruct H]. destruct H as [<-|[]].
    left. unfold commanded, about. rewrite R. split; [reflexivity|exact E].
  - unfold get_config in H. destruct (e_data e (q_sid q)); [|destruct H]. destruct H as [<-|[]]. exact I.
  - unfold server_config in H. destruct (e_meta e (q_sid q)); [destruct H as [<-|[]]; exact I|].
    destruct (e_data e (q_sid q)); [destruct H as [<-|[]]; exact I|].
    destruct (e_api e (q_sid q)) eqn:E; [|destruct H]. destruct H as [<-|[]]. split; [reflexivity|]. right. repeat split.
Qed.

Lemma handle_calls : forall e q c, In c (fst (handle e q)) -> In c (fst (handler e q (q_header q))).
Proof.
  intros e q c H. rewrite handle_eq in H. destruct (guarded _ && _); [destruct H|].
  destruct (reads_params _); [|exact H]. destruct (q_bound q); [exact H|destruct H|destruct H].
Qed.

Lemma fail_status : forall st, (100 <= st < 600)%Z -> answered (fail_err (GResp st)) = st.
Proof. intros st _. cbn. destruct (is_ok st); reflexivity. Qed.

(** An operation of the API server, from a request that gets as far as that. *)
Definition proper (q : req) : Prop := (guarded (q_route q) = true -> q_header q <> []) /\ q_bound q = BOk.

Lemma handle_proper : forall e q, proper q -> handle e q = handler e q (q_header q).
Proof.
  intros e q [G Bd]. rewrite handle_eq, Bd.
  destruct (guarded (q_route q)) eqn:E; [|cbn; destruct (reads_params _); reflexivity].
  destruct (str_eqb (q_header q) []) eqn:E2; [apply str_eqb_eq in E2; destruct (G eq_refl E2)|].
  cbn. destruct (reads_params _); reflexivity.
Qed.

Lemma select_some : forall e, e_apis e <> [] -> exists addr, select_api e = Some addr /\ In addr (e_apis e).
Proof.
  intros e H. unfold select_api. destruct (e_apis e) as [|a l] eqn:E; [congruence|].
  destruct (nth_error (a :: l) (e_pick e mod List.length (a :: l))) as [x|] eqn:En.
  - exists x. split; [reflexivity|]. apply nth_error_In with (1 := En).
  - apply nth_error_None in En. pose proof (Nat.mod_upper_bound (e_pick e) (List.length (a :: l))) as B.
    exfalso. specialize (B ltac:(discriminate)). lia.
Qed.

Definition reported (op : apiop) (ans : option Z) : Z :=
  match ans with
  | None => 500
  | Some st => if (st =? expected op)%Z then match op with APut => 201 | _ => 200 end else st
  end.

Lemma handler_api : forall e q t op addr, operation (q_route q) = Some op -> select_api e = Some addr ->
  fst (handler e q t) = [CApi addr op t] /\ status (handler e q t) = reported op (e_http e op t).
Proof.
  intros e q t op addr O S. unfold handler, status, reported.
  destruct (q_route q); try discriminate; injection O as <-; unfold via_api; rewrite S; unfold ask_api; cbn [fst snd];
    (split; [reflexivity|]); destruct (e_http _ _ _) as [st|]; try reflexivity;
    destruct (st =? expected _)%Z eqn:E; try reflexivity; cbn; destruct (is_ok st); reflexivity.
Qed.

Lemma reported_ok : forall op ans, is_ok (reported op ans) = true <-> exists st, ans = Some st /\ is_ok st = true.
Proof.
  intros op ans. unfold reported. destruct ans as [st|].
  - destruct (Z.eqb_spec st (expected op)) as [->|N].
    + split; [intros _; eexists; split; [reflexivity|destruct op; reflexivity]|intros _; destruct op; reflexivity].
    + split; [intros H; exists st; split; [reflexivity|exact H]|intros (x & E & H); injection E as <-; exact H].
  - split; [discriminate|intros (x & E & _); discriminate].
Qed.

Lemma handle_cases : forall e q, handle e q = handler e q (q_header q) \/ fst (handle e q) = [].
Proof.
  intros e q. rewrite handle_eq. destruct (guarded _ && _); [right; reflexivity|].
  destruct (reads_params _); [|left; reflexivity]. destruct (q_bound q); [left|right|right]; reflexivity.
Qed.

Lemma browse_alone : forall fits qs jar,
  fst (browse fits jar qs) = map (fun eq => handle (fst eq) (with_cookie (snd eq) None)) qs.
Proof.
  intros fits qs. induction qs as [|[e q] t IH]; intros jar; [reflexivity|]. cbn [browse map fst snd].
  specialize (IH (cookie_after fits (with_cookie q jar))). destruct (browse fits _ t) as [ds jar']. cbn [fst] in *.
  rewrite IH, !handle_cookie. reflexivity.
Qed.
