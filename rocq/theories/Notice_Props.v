(** Theorems about mails about errors. *)
From Verif Require Import Str_Model Util_Model Bind_Model Notice_Model Notice_Spec Notice_Proofs.
From Coq Require Import Permutation.
Local Open Scope list_scope.

(** === C193: an error is mailed once, and the mail says what happened === *)

(** Whatever level is configured, the lines that cause a mail are the errors and graver ones,
    when everything a mail needs is configured. *)
Theorem C193_which : forall c lv e, fires c lv e = true <-> set_up c /\ grave e.
Proof. exact fires_iff. Qed.
Print Assumptions C193_which.

(** A configuration for the examples. *)
Definition box : config := mk_config (s2l "ops@x.org") (s2l "fs@x.org") (s2l "pw") (s2l "mx.x.org") [].
Definition oops : entry := mk_entry Error (s2l "2023-05-01 10:00:00") (s2l "disk gone") (Some (s2l "main", 7%Z)).

Example C193_which_nonvacuous :
  fires box (s2l "eRRor") oops = true /\ fires box (s2l "trace") (mk_entry Warn [] (s2l "late") None) = false /\
  fires (mk_config [] (s2l "fs@x.org") (s2l "pw") (s2l "mx.x.org") []) (s2l "info") oops = false.
Proof. vm_compute. auto. Qed.

(** As long as the process lives and the mail server takes every mail, the mails sent and those on
    their way are those about the grave lines, one for each. *)
Theorem C193_mails : forall c lv evs, set_up c -> calm evs ->
  lives (run c lv evs) = true /\ Permutation (sent (run c lv evs) ++ pending (run c lv evs)) (due c evs).
Proof.
  intros c lv evs SU C. destruct (kept c lv SU evs start eq_refl) as [lost [P Q]]. destruct (Q C) as [-> L].
  split; [exact L|]. rewrite app_nil_r in P. exact P.
Qed.
Print Assumptions C193_mails.

Definition week : list event := [Log oops; Log (mk_entry Info [] (s2l "hello") None); Log (mk_entry Panic [] (s2l "worse") None); Done 1 true].

Example C193_mails_nonvacuous : set_up box /\ calm week /\
  map m_to (sent (run box (s2l "info") week)) = [[s2l "ops@x.org"]] /\ List.length (pending (run box (s2l "info") week)) = 1%nat.
Proof.
  split; [repeat split; discriminate|]. split; [|vm_compute; auto].
  split; [|intros i]; intros I; repeat (destruct I as [I|I]; [discriminate|]); destruct I.
Qed.

(** Whatever goes wrong, no other mail is sent, and none twice. *)
Theorem C193_only : forall c lv evs, set_up c ->
  exists lost, Permutation (sent (run c lv evs) ++ pending (run c lv evs) ++ lost) (due c evs).
Proof. intros c lv evs SU. destruct (kept c lv SU evs start eq_refl) as [lost [P _]]. exists lost. exact P. Qed.
Print Assumptions C193_only.

Example C193_only_nonvacuous : let s := run box (s2l "info") (week ++ [Done 0 false; Log oops; Exit]) in
  List.length (sent s) = 1%nat /\ pending s = [] /\ List.length (due box (week ++ [Done 0 false; Log oops; Exit])) = 3%nat.
Proof. vm_compute. auto. Qed.

(** Without everything a mail needs, none is ever begun. *)
Theorem C193_unset : forall c lv evs, ~ set_up c -> sent (run c lv evs) = [] /\ pending (run c lv evs) = [].
Proof.
  intros c lv evs NS. assert (V : is_valid c = false).
  { destruct (is_valid c) eqn:V; [|reflexivity]. apply valid_iff in V. contradiction. }
  destruct (silent c lv evs V start eq_refl eq_refl) as [P T]. split; assumption.
Qed.
Print Assumptions C193_unset.

Example C193_unset_nonvacuous : ~ set_up (mk_config (s2l "ops@x.org") (s2l "fs@x.org") [] (s2l "mx.x.org") []).
Proof. intros (_ & _ & _ & P). apply P. reflexivity. Qed.

(** Where a mail goes, and that the page is all of its text behind the head. *)
Theorem C193_addressed : forall c e,
  m_to (mail_of c e) = [target c] /\ m_from (mail_of c e) = sender c /\
  (~ In ":"%char (smtp_host c) -> exists port, port <> [] /\ (smtp_port c <> [] -> port = smtp_port c) /\
     m_addr (mail_of c e) = smtp_host c ++ ":"%char :: port) /\
  exists head, (forall e', m_text (mail_of c e') = head ++ page e').
Proof.
  intros c e. split; [reflexivity|]. split; [reflexivity|]. split.
  - intros NC. exists (if str_eqb (smtp_port c) [] then s2l "587" else smtp_port c).
    unfold str_eqb. split; [destruct (str_eq_dec (smtp_port c) []); [discriminate|assumption]|].
    split; [destruct (str_eq_dec (smtp_port c) []); [contradiction|reflexivity]|].
    unfold mail_of. cbn [m_addr]. unfold join_host_port.
    destruct (existsb (fun c0 => if ascii_dec c0 ":" then true else false) (smtp_host c)) eqn:X; [|reflexivity].
    exfalso. apply NC. apply existsb_exists in X. destruct X as [x [I X]]. destruct (ascii_dec x ":") as [->|]; [exact I|discriminate].
  - eexists. intros e'. unfold mail_of. cbn [m_text]. rewrite !app_assoc. reflexivity.
Qed.
Print Assumptions C193_addressed.

Example C193_addressed_nonvacuous : m_addr (mail_of box oops) = s2l "mx.x.org:587" /\ ~ In ":"%char (smtp_host box).
Proof.
  split; [reflexivity|]. cbn. intros I. repeat (destruct I as [I|I]; [discriminate|]). destruct I.
Qed.

(** The line of a mail tells what was logged. *)
Theorem C193_tells : forall e, tells e (line e).
Proof.
  intros e. unfold tells, line. eexists. split; [reflexivity|].
  destruct (e_caller e) as [[file n]|]; [|reflexivity]. exists (s2l " at "), (s2l ":"). reflexivity.
Qed.
Print Assumptions C193_tells.

Example C193_tells_nonvacuous : line (mk_entry Fatal (s2l "now") (s2l "a < b") None) = s2l "now [fatal] a < b".
Proof. reflexivity. Qed.

(** Full statement: [forall e, says (page e) (line e)]. Missing: lines with [<] or [&] in them;
    the next theorem shows that the full statement is false. *)
Theorem C193_says_partial : forall e, plain (line e) -> says (page e) (line e).
Proof. intros e P. apply page_says. exact P. Qed.
Print Assumptions C193_says_partial.

Example C193_says_nonvacuous : plain (line oops) /\ line oops = s2l "2023-05-01 10:00:00 [error] disk gone at main:7" /\
  drawn (page oops) = [s2l "html"; s2l "body style=""padding: 2rem"""; s2l "h1"; s2l "/h1";
    s2l "div style=""color: red; background-color: rgba(255, 0, 0, 0.10); border-radius: 0.5rem; padding: 1rem;""";
    s2l "/div"; s2l "/body"; s2l "/html"].
Proof.
  split; [|vm_compute; auto].
  assert (F : forallb (fun c => negb (if ascii_dec c "<" then true else false) && negb (if ascii_dec c "&" then true else false)) (line oops) = true)
    by (vm_compute; reflexivity).
  rewrite forallb_forall in F. split; intros I; specialize (F _ I); discriminate.
Qed.

(** Whoever may ask for metadata draws any tag without quotation marks into a mail: a request with
    the tag for a version is answered with status 500, and the mail about it has the tag. *)
Theorem C193_forged_refuted : forall dec x, Forall kept_char x -> ~ In ">"%char x ->
  exists q msg, get_metadata dec q = Some (Some msg, 500%Z) /\
    forall time caller, ~ In "<"%char time ->
      In x (drawn (page (mk_entry Error time msg caller))) /\
      (~ In (tag_name x) frame ->
       ~ says (page (mk_entry Error time msg caller)) (line (mk_entry Error time msg caller))).
Proof.
  intros dec x K X. set (t := "<"%char :: x ++ [">"%char]).
  assert (KT : Forall kept_char t).
  { constructor; [repeat split; vm_compute; congruence|]. apply Forall_app. split; [exact K|].
    constructor; [repeat split; vm_compute; congruence|constructor]. }
  set (pre := s2l "request(GET /v1/metadata/:name): [*strconv.NumError] strconv.ParseInt: parsing """).
  set (post := """"%char :: s2l ": invalid syntax").
  assert (E : get_metadata dec (asking t) = Some (Some (pre ++ t ++ post), 500%Z)).
  { unfold get_metadata. rewrite asking_error by (try discriminate; apply tag_not_int). cbn [option_map fail_err].
    f_equal. f_equal. f_equal. unfold num_error. rewrite quote_all by exact KT.
    change (looks_int t) with false. unfold fail_log, quotes, pre, post, t. cbn - [kept_char]. rewrite <- !app_assoc. reflexivity. }
  exists (asking t), (pre ++ t ++ post). split; [exact E|]. intros time caller NT.
  assert (D : In x (drawn (page (mk_entry Error time (pre ++ t ++ post) caller)))).
  { unfold page, line. cbn [e_time e_level e_text e_caller].
    match goal with |- In x (drawn (page_head ++ (time ++ s2l " [" ++ level_name Error ++ s2l "] " ++ (pre ++ t ++ post) ++ ?r) ++ page_tail)) =>
      replace ((time ++ s2l " [" ++ level_name Error ++ s2l "] " ++ (pre ++ t ++ post) ++ r) ++ page_tail)
        with ((time ++ s2l " [error] " ++ pre) ++ "<"%char :: x ++ ">"%char :: (post ++ r ++ page_tail)) end.
    - apply drawn_tag; [|exact X]. intros I. apply in_app_or in I. destruct I as [I|I]; [exact (NT I)|].
      cbn in I. repeat (destruct I as [I|I]; [discriminate|]). destruct I.
    - unfold t. change (s2l " [error] ") with (s2l " [" ++ level_name Error ++ s2l "] "). rewrite <- !app_assoc.
      cbn [app]. rewrite <- !app_assoc. reflexivity. }
  split; [exact D|]. intros NX [DR _]. apply NX. rewrite <- DR. apply in_map. exact D.
Qed.
Print Assumptions C193_forged_refuted.

Example C193_forged_nonvacuous :
  Forall kept_char (s2l "a href=//evil.org") /\ ~ In ">"%char (s2l "a href=//evil.org") /\
  ~ In (tag_name (s2l "a href=//evil.org")) frame.
Proof.
  split; [repeat constructor; vm_compute; congruence|]. split; vm_compute; intros I; repeat (destruct I as [I|I]; [discriminate|]); destruct I.
Qed.

(** The last line of a process is not mailed when the process ends before its goroutine does, and
    neither are the mails still on their way. *)
Theorem C193_exit_refuted : forall c lv evs e, set_up c -> grave e -> ~ In Exit evs ->
  let s := run c lv (evs ++ [Log e; Exit]) in
  due c (evs ++ [Log e; Exit]) = due c evs ++ [mail_of c e] /\ sent s = sent (run c lv evs) /\ pending s = [] /\
  forall more, run c lv (evs ++ [Log e; Exit] ++ more) = s.
Proof.
  intros c lv evs e SU G NE s.
  assert (L : lives (run c lv evs) = true) by (apply still_lives; [exact NE|reflexivity]).
  assert (E : s = mk_state [] (sent (run c lv evs)) false).
  { unfold s, run. rewrite fold_left_app. fold (run c lv evs). cbn [fold_left]. unfold step at 2. rewrite L.
    rewrite (proj2 (fires_iff c lv e) (conj SU G)). reflexivity. }
  split; [|rewrite E; split; [reflexivity|split; [reflexivity|]]].
  - unfold due. rewrite logged_app by exact NE. rewrite filter_app, map_app. f_equal. cbn [logged filter].
    destruct G as [G|[G|G]]; rewrite G; reflexivity.
  - intros more. rewrite <- E. unfold run. rewrite app_assoc, fold_left_app. fold (run c lv (evs ++ [Log e; Exit])). fold s.
    apply dead. rewrite E. reflexivity.
Qed.
Print Assumptions C193_exit_refuted.

Example C193_exit_nonvacuous : grave (mk_entry Fatal [] (s2l "no port") None) /\ ~ In Exit week /\ sent (run box (s2l "info") week) <> [].
Proof.
  split; [unfold grave; auto|]. split; [|vm_compute; discriminate].
  intros I; repeat (destruct I as [I|I]; [discriminate|]); destruct I.
Qed.

(** A mail the mail server does not take is not tried again: the error is not mailed at all. *)
Theorem C193_untaken_refuted : forall c lv e, set_up c -> grave e ->
  due c [Log e; Done 0 false] = [mail_of c e] /\ run c lv [Log e; Done 0 false] = start.
Proof.
  intros c lv e SU G. split.
  - unfold due. cbn [logged filter]. destruct G as [G|[G|G]]; rewrite G; reflexivity.
  - unfold run. cbn [fold_left]. unfold step at 2. change (lives start) with true. cbn [negb].
    rewrite (proj2 (fires_iff c lv e) (conj SU G)). reflexivity.
Qed.
Print Assumptions C193_untaken_refuted.

Example C193_untaken_nonvacuous : set_up box /\ grave oops.
Proof. split; [repeat split; discriminate|unfold grave; auto]. Qed.
