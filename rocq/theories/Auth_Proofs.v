(** Proofs about the checks in front of the API server's routes. *)
From Verif Require Import Str_Model Meta_Model Rpc_Model Auth_Model Auth_Spec.
From stdpp Require Import gmap.
Local Open Scope list_scope.

Lemma prefixb_app : forall p s, prefixb p s = true <-> exists r, s = p ++ r.
Proof.
  induction p as [|a p IH]; intros s; cbn.
  - split; [eauto|done].
  - destruct s as [|b s]; [split; [done|intros (r & H); discriminate H]|].
    destruct (ascii_dec a b) as [->|N].
    + rewrite IH. split; intros (r & H); exists r; [by rewrite H|by injection H].
    + split; [done|]. intros (r & H). by injection H.
Qed.

Lemma white_iff : forall l s, existsb (fun w => prefixb w s) l = true <-> exists w r, w ∈ l /\ s = w ++ r.
Proof.
  intros l s. rewrite existsb_exists. split.
  - intros (w & Hw & P). apply prefixb_app in P as (r & P). exists w, r. split; [by apply elem_of_list_In|done].
  - intros (w & r & Hw & P). exists w. split; [by apply elem_of_list_In|]. apply prefixb_app. eauto.
Qed.

Lemma cb_granted : forall cf cb q, fst (cb_middleware cf cb q) = true <->
  ac_cb cf = true /\ exists t, cb_token cf q = Some t /\ cb t = Some 200%Z.
Proof.
  intros cf cb q. unfold cb_middleware, cb_verify. destruct (ac_cb cf); [|split; [done|by intros [? _]]].
  destruct (cb_token cf q) as [t|] eqn:E; [|split; [done|intros (_ & t & H & _); done]].
  destruct (cb t) as [st|] eqn:S.
  - destruct (Z.eqb_spec st 200) as [->|N]; cbn; split; [eauto|done|done|].
    intros (_ & t' & H & H'). injection H as <-. rewrite S in H'. by injection H'.
  - cbn. split; [done|]. intros (_ & t' & H & H'). injection H as <-. by rewrite S in H'.
Qed.

Lemma cb_clear : forall cf cb q, fst (cb_middleware cf cb q) = true -> snd (cb_middleware cf cb q) = None.
Proof.
  intros cf cb q. unfold cb_middleware. destruct (ac_cb cf); [|done]. destruct (cb_token cf q); [|done].
  by destruct (cb_verify cb c).
Qed.

Lemma pw_granted : forall cf k q, fst (pw_middleware cf k q) = true <->
  ac_pw cf = true /\ exists u p, aq_basic q = Some (u, p) /\ k = KCred u p.
Proof.
  intros cf k q. unfold pw_middleware. destruct (aq_basic q) as [[u p]|]; [|split; [done|by intros (_ & ? & ? & ? & _)]].
  destruct (ac_pw cf); [|split; [done|by intros [? _]]].
  destruct k as [| | |u' p']; cbn; try (split; [done|by intros (_ & ? & ? & _ & ?)]).
  destruct (bool_decide (u = u')) eqn:U; cbn.
  - apply bool_decide_eq_true in U as ->. destruct (bool_decide (p = p')) eqn:P; cbn.
    + apply bool_decide_eq_true in P as ->. split; [eauto|done].
    + apply bool_decide_eq_false in P. split; [done|]. intros (_ & ? & ? & H & H'). congruence.
  - apply bool_decide_eq_false in U. split; [done|]. intros (_ & ? & ? & H & H'). congruence.
Qed.

Lemma pw_clear : forall cf k q, fst (pw_middleware cf k q) = true -> snd (pw_middleware cf k q) = None.
Proof.
  intros cf k q. unfold pw_middleware. destruct (aq_basic q) as [[u p]|]; [|done].
  destruct (ac_pw cf); [|done]. by destruct (pw_verify k u p).
Qed.

Lemma wrap_fst : forall v x, (fst v = true -> snd v = None) -> fst (wrap v x) = (fst x || fst v).
Proof.
  intros [ok e] [a b] H. unfold wrap. cbn in *. destruct a; [done|]. destruct e; [|done].
  destruct ok; [|done]. by specialize (H eq_refl).
Qed.

Lemma authenticate_iff : forall cf cb k q, authenticate cf cb k q = None <-> entitled cf cb k q.
Proof.
  intros cf cb k q. unfold authenticate, after.
  assert (forall x : actx, (if fst x then None else match snd x with Some e => Some (fail_err e) | None => Some [WStatus 500] end)
    = None <-> fst x = true) as A.
  { intros [[] e]; cbn; [done|]. split; [by destruct e|done]. }
  rewrite A, wrap_fst by apply pw_clear. rewrite wrap_fst by apply cb_clear.
  rewrite !orb_true_iff, cb_granted, pw_granted. unfold pre. split.
  - intros [[H|(H1 & t & H2 & H3)]|(H1 & u & p & H2 & H3)].
    + destruct (ac_enable cf) eqn:E; [|by apply en_off]. cbn in H.
      destruct (existsb _ _) eqn:W; [|done]. apply white_iff in W as (w & r & W1 & W2). by eapply en_white.
    + by eapply en_callback.
    + by eapply en_password.
  - intros [H|w r H1 H2|t H1 H2 H3|u p H1 H2 H3].
    + left. left. by rewrite H.
    + left. left. destruct (ac_enable cf); [|done]. cbn.
      by rewrite (proj2 (white_iff _ _)) by eauto.
    + left. right. eauto.
    + right. eauto.
Qed.

(** ** Refused requests *)

Definition bad_err (e : gerr) : Prop := says_failure (fail_err e).

Lemma resp_bad : forall st, (400 <= st < 600)%Z -> bad_err (GResp st).
Proof.
  intros st H. unfold bad_err, says_failure, fail_err.
  assert (is_ok st = false) as -> by
    (unfold is_ok; apply Z.eqb_neq; assert (4 <= st / 100)%Z by (apply Z.div_le_lower_bound; lia); lia).
  exact H.
Qed.

Lemma other_bad : bad_err GOther.
Proof. done. Qed.

Lemma cb_bad : forall cf cb q e, refuses_plainly cb -> snd (cb_middleware cf cb q) = Some e -> bad_err e.
Proof.
  intros cf cb q e R. unfold cb_middleware, cb_verify. destruct (ac_cb cf); [|done].
  destruct (cb_token cf q) as [t|]; [|intros [= <-]; apply resp_bad; lia].
  destruct (cb t) as [st|] eqn:S; [|intros [= <-]; exact other_bad].
  destruct (Z.eqb_spec st 200); [done|]. intros [= <-]. apply resp_bad. apply R in S as [S|S]; [done|exact S].
Qed.

Lemma pw_bad : forall cf k q e, snd (pw_middleware cf k q) = Some e -> bad_err e.
Proof.
  intros cf k q e. unfold pw_middleware. destruct (aq_basic q) as [[u p]|]; [|done].
  destruct (ac_pw cf); [|done]. destruct k as [| | |u' p']; cbn; try (intros [= <-]; exact other_bad).
  destruct (bool_decide _ && bool_decide _); [done|]. intros [= <-]. apply resp_bad. lia.
Qed.

Lemma wrap_bad : forall v x, (forall e, snd v = Some e -> bad_err e) ->
  (fst x = true \/ exists e, snd x = Some e /\ bad_err e) ->
  fst (wrap v x) = true \/ exists e, snd (wrap v x) = Some e /\ bad_err e.
Proof.
  intros [ok o] [a b] H [X|(e & X1 & X2)]; cbn in *.
  - subst a. by left.
  - subst b. unfold wrap. cbn. destruct a; [by left|]. destruct o as [e'|]; cbn; right; eauto.
Qed.

Lemma refused_says_so : forall cf cb k q ws, refuses_plainly cb -> authenticate cf cb k q = Some ws -> says_failure ws.
Proof.
  intros cf cb k q ws R H. unfold authenticate, after in H.
  assert (fst (pre cf q) = true \/ exists e, snd (pre cf q) = Some e /\ bad_err e) as P.
  { unfold pre. destruct (negb _); [by left|]. destruct (existsb _ _); [by left|]. right.
    exists (GResp 403). split; [done|]. apply resp_bad. lia. }
  apply (wrap_bad (cb_middleware cf cb q)) in P; [|intros e He; by eapply cb_bad].
  apply (wrap_bad (pw_middleware cf k q)) in P; [|intros e He; by eapply pw_bad].
  destruct P as [P|(e & P1 & P2)].
  - by rewrite P in H.
  - destruct (fst (wrap _ _)); [done|]. rewrite P1 in H. by injection H as <-.
Qed.

(** ** What is asked and what is done *)

Lemma asked_is_done : forall cf q t, by_header (aq_route q) = true -> host_bucket (aq_host q) = None ->
  cb_token cf q = Some t -> (ct_bucket t, ct_file t) = target q /\ ct_method t = method (aq_route q).
Proof.
  intros cf q t R H T. unfold cb_token in T. rewrite H in T. destruct (aq_bucket q) as [|c b] eqn:B; [done|].
  injection T as <-. unfold target, param_name. cbn. rewrite B. by destruct (aq_route q).
Qed.

Lemma host_no_dot : forall h, "."%char ∉ h -> host_bucket h = None.
Proof.
  intros h H. unfold host_bucket. enough (before_dot h = None) as -> by done.
  induction h as [|c h IH]; [done|]. cbn. apply not_elem_of_cons in H as [H1 H2].
  destruct (ascii_dec c "."%char) as [->|N]; [done|]. by rewrite IH.
Qed.

(** ** The first credential *)

Lemma init_keeps : forall l s, Forall (fun x => snd (fst x) = true) l -> starts l (Some s) = Some s.
Proof.
  intros l. induction l as [|[[cf g] p] l IH]; intros s H; [done|]. apply Forall_cons in H as [H1 H2].
  cbn in H1. subst g. unfold starts. cbn. unfold pw_init at 2. cbn. destruct (negb (ac_pw cf)); by apply IH.
Qed.

Lemma init_nonempty : forall l s, Forall (fun x => snd (fst x) = true) l ->
  (forall u p, s = Some (u, p) -> u <> [] /\ p <> []) ->
  forall u p, starts l s = Some (u, p) -> u <> [] /\ p <> [].
Proof.
  intros l. induction l as [|[[cf g] p0] l IH]; intros s H N; [exact N|]. apply Forall_cons in H as [H1 H2].
  cbn in H1. subst g. unfold starts. cbn. fold (starts l (pw_init cf true p0 s)). apply IH; [done|].
  intros u p. unfold pw_init. destruct (negb (ac_pw cf)); [apply N|]. cbn.
  destruct s as [[u0 p1]|]; [cbn; apply N|]. cbn.
  destruct (bool_decide (ac_user cf = [])) eqn:U; [done|]. destruct (bool_decide (ac_pass cf = [])) eqn:P; [done|].
  apply bool_decide_eq_false in U, P. cbn. destruct p0; [|done]. intros [= <- <-]. done.
Qed.
