(** Properties of the checks in front of the API server's routes (C67-C69). *)
From Verif Require Import Str_Model Meta_Model Rpc_Model Auth_Model Auth_Spec Auth_Proofs.
From stdpp Require Import gmap.
Local Open Scope list_scope.

(** ** Concrete requests *)

Definition no_query : str -> list str := fun _ => [].
Definition no_header : str -> str := fun _ => [].
(** GET of an object by its host name without a dot. *)
Definition q_get : areq :=
  mk_areq GetObject (s2l "store:8080"%string) (s2l "pics"%string) (s2l "eu"%string) (s2l "a.png"%string) (s2l "3"%string)
    no_query no_header None ([], []) [].
Definition q_admin (u p : str) : areq :=
  mk_areq DeleteBucket_ (s2l "store:8080"%string) [] [] (s2l "pics"%string) [] no_query no_header (Some (u, p)) ([], []) [].
(** GET of an object of bucket secret at 192.168.0.7. *)
Definition q_ip : areq :=
  mk_areq GetObject (s2l "192.168.0.7:8080"%string) (s2l "secret"%string) [] (s2l "a.png"%string) [] no_query no_header None
    ([], []) [].
(** PATCH with the token of an object in bucket secret, header Bucket own. *)
Definition q_patch : areq :=
  mk_areq PatchBig (s2l "store:8080"%string) (s2l "own"%string) [] [] [] no_query no_header None
    (s2l "secret"%string, s2l "a.png"%string) [].
(** DELETE of bucket secret, header Bucket own. *)
Definition q_drop : areq :=
  mk_areq DeleteBucket_ (s2l "store:8080"%string) (s2l "own"%string) [] (s2l "secret"%string) [] no_query no_header None
    ([], []) [].

Definition cf_cb : aconf := mk_aconf true [s2l "/v1/security"%string] true [] false [] [].
Definition cf_pw (u p : str) : aconf := mk_aconf true [] false [] true u p.
(** Lets requests about one bucket pass, refuses others with the given status. *)
Definition cb_only (b : str) (st : Z) : callback :=
  fun t => Some (if bool_decide (ct_bucket t = b) then 200%Z else st).

(** ** C67 *)

(** A request passes exactly when it is entitled to. *)
Theorem C67_access : forall cf cb k q, authenticate cf cb k q = None <-> entitled cf cb k q.
Proof. exact authenticate_iff. Qed.
Print Assumptions C67_access.

Example C67_access_case :
  entitled cf_cb (cb_only (s2l "pics"%string) 403) KNone q_get /\
  ~ entitled cf_cb (cb_only (s2l "docs"%string) 403) KNone q_get /\
  entitled (cf_pw [] []) (fun _ => None) (KCred (s2l "root"%string) (s2l "pw"%string))
    (q_admin (s2l "root"%string) (s2l "pw"%string)) /\
  ~ entitled (cf_pw [] []) (fun _ => Some 200%Z) (KCred (s2l "root"%string) (s2l "pw"%string))
    (q_admin (s2l "root"%string) (s2l "wp"%string)).
Proof.
  split; [|split; [|split]].
  - eapply en_callback; [reflexivity|vm_compute; reflexivity|vm_compute; reflexivity].
  - rewrite <- C67_access. vm_compute. discriminate.
  - eapply en_password; reflexivity.
  - rewrite <- C67_access. vm_compute. discriminate.
Qed.

(** With the white list empty of prefixes of the route and both ways off nobody passes. *)
Theorem C67_closed : forall cf cb k q, ac_enable cf = true -> ac_cb cf = false -> ac_pw cf = false ->
  Forall (fun w => prefixb w (full_path (aq_route q)) = false) (ac_white cf) ->
  authenticate cf cb k q = Some [WBody 403].
Proof.
  intros cf cb k q H1 H2 H3 W. unfold authenticate, pre, cb_middleware, pw_middleware.
  rewrite H1, H2, H3. cbn [negb].
  assert (existsb (fun w => prefixb w (full_path (aq_route q))) (ac_white cf) = false) as ->.
  { induction W as [|w l E _ IH]; [reflexivity|]. cbn. rewrite E. exact IH. }
  destruct (aq_basic q) as [[u p]|]; reflexivity.
Qed.
Print Assumptions C67_closed.

Example C67_closed_case :
  Forall (fun w => prefixb w (full_path (aq_route q_get)) = false) (ac_white (mk_aconf true [s2l "/v1/security"%string] false [] false [] [])).
Proof. constructor; [vm_compute; reflexivity|constructor]. Qed.

(** Full statement: a refused request is answered as failed.
[forall cf cb k q ws, authenticate cf cb k q = Some ws -> says_failure ws.]
    Missing: callback servers that refuse with another status than 4xx or 5xx. *)
Theorem C67_refusal_partial : forall cf cb k q ws, refuses_plainly cb ->
  authenticate cf cb k q = Some ws -> says_failure ws.
Proof. exact refused_says_so. Qed.
Print Assumptions C67_refusal_partial.

Example C67_refusal_case : refuses_plainly (cb_only (s2l "docs"%string) 403) /\
  authenticate cf_cb (cb_only (s2l "docs"%string) 403) KNone q_get = Some [WBody 403].
Proof.
  split; [|vm_compute; reflexivity]. intros t st. unfold cb_only. destruct (bool_decide _); intros [= <-]; [left; reflexivity|right].
  lia.
Qed.

(** A callback server that answers 204 (or any other 2xx but 200) refuses, and the
    client reads that its PUT, whose body nobody looked at, went well. *)
Theorem C67_refusal_refuted : exists cf cb k q ws,
  authenticate cf cb k q = Some ws /\ answered ws = 204%Z /\ ~ says_failure ws.
Proof.
  exists cf_cb, (fun _ => Some 204%Z), KNone, q_get, [WStatus 204].
  split; [vm_compute; reflexivity|]. split; [vm_compute; reflexivity|]. intros [H _]. vm_compute in H. apply H. reflexivity.
Qed.
Print Assumptions C67_refusal_refuted.

(** ** C68 *)

(** Full statement: the callback server is asked about what the request then does.
[forall cf q t, cb_token cf q = Some t ->
   (ct_bucket t, ct_file t) = target q /\ ct_method t = method (aq_route q).]
    Missing: hosts with a dot, the steps of a resumable upload, the bucket routes;
    requests with stray keys, see C81. *)
Theorem C68_asked_partial : forall cf q t, by_header (aq_route q) = true -> "."%char ∉ aq_host q ->
  cb_token cf q = Some t -> (ct_bucket t, ct_file t) = target q /\ ct_method t = method (aq_route q).
Proof. intros cf q t R H. apply asked_is_done; [exact R|]. apply host_no_dot. exact H. Qed.
Print Assumptions C68_asked_partial.

(** So with the callback as the only way in, an object is reached only if the callback
    server answered 200 for its bucket and name. *)
(** Partial; the full statement is at [C68_asked_partial]. *)
Theorem C68_guarded_partial : forall cf cb k q, ac_enable cf = true -> ac_white cf = [] -> ac_pw cf = false ->
  by_header (aq_route q) = true -> "."%char ∉ aq_host q -> authenticate cf cb k q = None ->
  exists t, cb t = Some 200%Z /\ ct_bucket t = fst (target q) /\ ct_file t = snd (target q) /\
            ct_method t = method (aq_route q).
Proof.
  intros cf cb k q E W P R H A. apply C67_access in A as [A|w r A _|t A1 A2 A3|u p A _ _].
  - congruence.
  - rewrite W in A. apply elem_of_nil in A as [].
  - destruct (C68_asked_partial cf q t R H A2) as [B M]. rewrite <- B. exists t. auto.
  - congruence.
Qed.
Print Assumptions C68_guarded_partial.

Example C68_guarded_case :
  authenticate (mk_aconf true [] true [] false [] []) (cb_only (s2l "pics"%string) 403) KNone q_get = None /\
  "."%char ∉ aq_host q_get /\ by_header (aq_route q_get) = true /\ target q_get = (s2l "pics"%string, s2l "a.png"%string).
Proof.
  split; [vm_compute; reflexivity|]. split; [|split; reflexivity].
  apply (bool_decide_eq_true_1 ("."%char ∉ aq_host q_get)). vm_compute. reflexivity.
Qed.

(** At an address with dots the server is asked about the bucket [192]; whoever may use
    it reads every bucket. *)
Theorem C68_host_refuted : exists cf cb k q,
  authenticate cf cb k q = None /\ (forall t, cb t = Some 200%Z -> ct_bucket t = s2l "192"%string) /\
  target q = (s2l "secret"%string, s2l "a.png"%string).
Proof.
  exists cf_cb, (cb_only (s2l "192"%string) 403), KNone, q_ip. split; [vm_compute; reflexivity|]. split; [|reflexivity].
  intros t. unfold cb_only. destruct (bool_decide (ct_bucket t = s2l "192"%string)) eqn:E; [|discriminate].
  intros _. apply bool_decide_eq_true in E. exact E.
Qed.
Print Assumptions C68_host_refuted.

(** PATCH /big/:token and DELETE /bucket/:name: the header Bucket decides who is asked,
    the token or the path what is done. *)
Theorem C68_target_refuted : forall r, r = PatchBig \/ r = HeadBig \/ r = DeleteBucket_ \/ r = PutBucket \/ r = GetBucket ->
  exists cf cb k q, aq_route q = r /\
  authenticate cf cb k q = None /\ (forall t, cb t = Some 200%Z -> ct_bucket t = s2l "own"%string) /\
  fst (target q) = s2l "secret"%string.
Proof.
  intros r R. exists cf_cb, (cb_only (s2l "own"%string) 403), KNone,
    (mk_areq r (s2l "store:8080"%string) (s2l "own"%string) [] (s2l "secret"%string) [] no_query no_header None
       (s2l "secret"%string, s2l "a.png"%string) []).
  assert (forall t, cb_only (s2l "own"%string) 403 t = Some 200%Z -> ct_bucket t = s2l "own"%string) as C.
  { intros t. unfold cb_only. destruct (bool_decide (ct_bucket t = s2l "own"%string)) eqn:E; [|discriminate].
    intros _. apply bool_decide_eq_true in E. exact E. }
  split; [reflexivity|].
  destruct R as [ -> |[ -> |[ -> |[ -> | -> ]]]]; (split; [vm_compute; reflexivity|]); (split; [exact C|reflexivity]).
Qed.
Print Assumptions C68_target_refuted.

(** ** C69 *)

(** Full statement: starting API servers leaves the stored credential alone.
[forall l s, starts l (Some s) = Some s.]
    Missing: a start whose read of the credential fails. *)
Theorem C69_kept_partial : forall l s, List.Forall (fun x : aconf * bool * bool => snd (fst x) = true) l ->
  starts l (Some s) = Some s.
Proof. exact init_keeps. Qed.
Print Assumptions C69_kept_partial.

(** Nor does the empty credential get in. *)
(** Partial; the full statement is at [C69_kept_partial]. *)
Theorem C69_nonempty_partial : forall l, List.Forall (fun x : aconf * bool * bool => snd (fst x) = true) l ->
  forall cf cb q u p, aq_basic q = Some (u, p) -> u = [] \/ p = [] ->
  fst (pw_middleware cf (read_cred (starts l None)) q) = false /\
  (ac_enable cf = true -> ac_white cf = [] -> ac_cb cf = false -> authenticate cf cb (read_cred (starts l None)) q <> None).
Proof.
  intros l L cf cb q u p B E.
  assert (forall u' p', read_cred (starts l None) = KCred u' p' -> u' <> [] /\ p' <> []) as N.
  { intros u' p' H. apply (init_nonempty l None L); [discriminate|]. unfold read_cred in H.
    destruct (starts l None) as [[u1 p1]|] eqn:S; [|discriminate]. injection H as -> ->. exact S. }
  split.
  - destruct (fst (pw_middleware cf (read_cred (starts l None)) q)) eqn:F; [|reflexivity].
    apply pw_granted in F as (_ & u' & p' & F1 & F2). rewrite B in F1. injection F1 as <- <-.
    destruct (N _ _ F2) as [N1 N2]. destruct E; contradiction.
  - intros E1 E2 E3 A. apply C67_access in A as [A|w r A _|t A _ _|u' p' _ A1 A2].
    + congruence.
    + rewrite E2 in A. apply elem_of_nil in A as [].
    + congruence.
    + rewrite B in A1. injection A1 as <- <-. destruct (N _ _ A2) as [N1 N2]. destruct E; contradiction.
Qed.
Print Assumptions C69_nonempty_partial.

Example C69_case :
  starts [(cf_pw [] [], true, true); (cf_pw (s2l "root"%string) (s2l "pw"%string), true, true); (cf_pw (s2l "x"%string) (s2l "y"%string), true, true)]
    None = Some (s2l "root"%string, s2l "pw"%string).
Proof. vm_compute. reflexivity. Qed.

(** A failed read counts as no credential: the start writes the configured one over it,
    even the empty one, with which everybody is the administrator. *)
Theorem C69_kept_refuted : exists l s cf cb q,
  starts l (Some s) = Some ([], []) /\ fst s <> [] /\ snd s <> [] /\ aq_basic q = Some ([], []) /\
  authenticate cf cb (read_cred (starts l (Some s))) q = None.
Proof.
  exists [(cf_pw [] [], false, true)], (s2l "root"%string, s2l "pw"%string), (cf_pw [] []), (fun _ => None), (q_admin [] []).
  split; [vm_compute; reflexivity|]. split; [discriminate|]. split; [discriminate|]. split; [reflexivity|vm_compute; reflexivity].
Qed.
Print Assumptions C69_kept_refuted.
