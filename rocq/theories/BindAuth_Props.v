(** Properties of what the API server's handlers act on, against what the callback server
    was asked (C81). *)
From Verif Require Import Str_Model Util_Model Meta_Model Rpc_Model Auth_Model Auth_Spec Auth_Proofs Auth_Props
  Bind_Model Bind_Spec Bind_Proofs Bind_Props BindAuth_Model.
From stdpp Require Import gmap.
Local Open Scope list_scope.

Lemma field_value_nth : forall go fs o i f v, length o = length fs -> nth_error fs i = Some f -> f_go f = go ->
  (forall j g, nth_error fs j = Some g -> f_go g = go -> j = i) -> nth_error o i = Some v -> field_value go fs o = Some v.
Proof.
  intros go. induction fs as [|g fs IH]; intros [|w o] i f v L F G U V; try discriminate L; [destruct i; discriminate F|].
  cbn. destruct i as [|i]; cbn in F, V.
  - injection F as ->. injection V as ->. rewrite (proj2 (eqb_str' _ _) G). reflexivity.
  - destruct (str_eqb (f_go g) go) eqn:E.
    + apply eqb_str' in E. specialize (U 0%nat g eq_refl E). discriminate U.
    + apply (IH o i f v); auto. intros j h H HG. specialize (U (S j) h H HG). congruence.
Qed.

Lemma bucket_meant : forall q f, f_header f = Some (s2l "bucket"%string) -> f_kind f = KText ->
  meant (request_of q) f (VText (aq_bucket q)).
Proof.
  intros q f T K. destruct (aq_bucket q) as [|c b] eqn:B.
  - pose proof (M_absent (request_of q) f Header (s2l "bucket"%string) T) as M. rewrite K in M. apply M.
    change (one (aq_bucket q) = []). rewrite B. reflexivity.
  - apply (M_given (request_of q) f Header (s2l "bucket"%string) (c :: b) []); [exact T| |rewrite K; constructor].
    change (one (aq_bucket q) = [c :: b]). rewrite B. reflexivity.
Qed.

Lemma name_meant : forall q f, f_uri f = Some (s2l "name"%string) -> f_kind f = KText ->
  meant (request_of q) f (VText (aq_param q)).
Proof.
  intros q f T K. apply (M_given (request_of q) f Uri (s2l "name"%string) (aq_param q) []); [exact T|reflexivity|rewrite K; constructor].
Qed.

Lemma places : forall r b, binder_of r = Some b -> In b by_form /\
  exists i f j g, nth_error (b_fields b) i = Some f /\ f_header f = Some (s2l "bucket"%string) /\ f_kind f = KText /\ f_go f = s2l "Bucket"%string /\
    nth_error (b_fields b) j = Some g /\ f_uri g = Some (s2l "name"%string) /\ f_kind g = KText /\ f_go g = s2l "Name"%string /\
    (forall k h, nth_error (b_fields b) k = Some h -> f_go h = s2l "Bucket"%string -> k = i) /\
    (forall k h, nth_error (b_fields b) k = Some h -> f_go h = s2l "Name"%string -> k = j).
Proof.
  intros r b B. destruct r; try discriminate B; injection B as <-.
  all: split; [unfold by_form, guarded; cbn; tauto|].
  - exists 3%nat. eexists. exists 2%nat. eexists. do 8 (split; [reflexivity|]).
    split; intros k h H G; do 8 (destruct k as [|k]; [cbn in H; injection H as <-; try discriminate G; reflexivity|]); destruct k; discriminate H.
  - exists 1%nat. eexists. exists 0%nat. eexists. do 8 (split; [reflexivity|]).
    split; intros k h H G; do 4 (destruct k as [|k]; [cbn in H; injection H as <-; try discriminate G; reflexivity|]); destruct k; discriminate H.
  - exists 2%nat. eexists. exists 1%nat. eexists. do 8 (split; [reflexivity|]).
    split; intros k h H G; do 6 (destruct k as [|k]; [cbn in H; injection H as <-; try discriminate G; reflexivity|]); destruct k; discriminate H.
  - exists 1%nat. eexists. exists 0%nat. eexists. do 8 (split; [reflexivity|]).
    split; intros k h H G; do 3 (destruct k as [|k]; [cbn in H; injection H as <-; try discriminate G; reflexivity|]); destruct k; discriminate H.
  - exists 2%nat. eexists. exists 3%nat. eexists. do 8 (split; [reflexivity|]).
    split; intros k h H G; do 4 (destruct k as [|k]; [cbn in H; injection H as <-; try discriminate G; reflexivity|]); destruct k; discriminate H.
Qed.

(** Full statement: a handler acts on the bucket in the header and the name in the path,
    which are what the callback server is asked about (C68).
[forall dec q b x, binder_of (aq_route q) = Some b -> acted_on dec b q = Some x -> x = target q.]
    Missing: requests with stray keys. *)
Theorem C81_target_partial : forall dec q b, binder_of (aq_route q) = Some b ->
  clean b (request_of q) -> well_formed b (request_of q) -> acted_on dec b q = Some (target q).
Proof.
  intros dec q b B C W. destruct (places _ b B) as (I & i & f & j & g & F1 & F2 & F3 & F4 & G1 & G2 & G3 & G4 & U1 & U2).
  destruct (C80_accepted_partial b dec (request_of q) I C W) as [A V].
  assert (length (fst (bind dec b (request_of q))) = length (b_fields b)) as L.
  { unfold bind. apply all_length. apply map_length. }
  unfold acted_on. rewrite A.
  rewrite (field_value_nth _ (b_fields b) _ i f (VText (aq_bucket q)) L F1 F4 U1).
  2: { apply (V i f); [exact F1|exists Header; eauto|now apply bucket_meant]. }
  rewrite (field_value_nth _ (b_fields b) _ j g (VText (aq_param q)) L G1 G4 U2).
  2: { apply (V j g); [exact G1|exists Uri; eauto|now apply name_meant]. }
  unfold target. destruct (aq_route q); try discriminate B; reflexivity.
Qed.
Print Assumptions C81_target_partial.

(** So, with the callback as the only way in, for accepted requests without stray keys to
    the routes of objects and of versions: the callback server granted the bucket and the
    name that the handler then acts on. *)
(** Partial; the full statement is at [C81_target_partial]. *)
Theorem C81_granted_partial : forall cf cb k dec q b x, ac_enable cf = true -> ac_white cf = [] -> ac_pw cf = false ->
  "."%char ∉ aq_host q -> binder_of (aq_route q) = Some b -> In b guarded -> clean b (request_of q) ->
  authenticate cf cb k q = None -> acted_on dec b q = Some x ->
  exists t, cb t = Some 200%Z /\ (ct_bucket t, ct_file t) = x /\ ct_method t = method (aq_route q).
Proof.
  intros cf cb k dec q b x E WL P H B G C A X.
  assert (by_header (aq_route q) = true) as R by (destruct (aq_route q); try discriminate B; reflexivity).
  destruct (C68_guarded_partial cf cb k q E WL P R H A) as (t & T & T1 & T2 & T3).
  exists t. split; [exact T|]. split; [|exact T3].
  assert (well_formed b (request_of q)) as W.
  { apply (C80_exact_partial b dec _ G C). unfold acted_on in X. destruct (snd (bind dec b (request_of q))); congruence. }
  rewrite (C81_target_partial dec q b B C W) in X. injection X as <-. rewrite T1, T2. destruct (target q). reflexivity.
Qed.
Print Assumptions C81_granted_partial.

Lemma q_get_clean : clean get_req (request_of q_get).
Proof.
  intros s f S F T D. destruct S as [<-|[<-|[<-|[]]]]; destruct F as [<-|[<-|[<-|[<-|[]]]]]; try discriminate T;
    (split; [reflexivity|]; intros inner k K; try discriminate K; injection K as <-; intros [<-|[]]; reflexivity).
Qed.
Example C81_granted_case :
  acted_on no_json get_req q_get = Some (s2l "pics"%string, s2l "a.png"%string) /\
  clean get_req (request_of q_get) /\
  authenticate (mk_aconf true [] true [] false [] []) (cb_only (s2l "pics"%string) 403) KNone q_get = None.
Proof. split; [vm_compute; reflexivity|]. split; [exact q_get_clean|vm_compute; reflexivity]. Qed.

(** A query parameter with the Go name of a field overrules the path or the header: the
    callback server grants what is asked of it, the handler acts on another object.
    POST big reads the path last, there it is the bucket that is replaced. *)
Definition stray (k v : string) (x : str) : list str := if str_eqb x (s2l k) then [s2l v] else [].
Definition heads (x : str) : str :=
  if str_eqb x (s2l "Digest"%string) then s2l "d"%string else if str_eqb x (s2l "Size"%string) then s2l "7"%string else [].
Definition pages (x : str) : list str :=
  if str_eqb x (s2l "page"%string) then [s2l "1"%string] else if str_eqb x (s2l "page_size"%string) then [s2l "10"%string]
  else stray "Name" "secret" x.
Definition cb_name (n : str) : callback := fun t => Some (if bool_decide (ct_file t = n) then 200%Z else 403%Z).
Theorem C81_name_refuted : forall r, r = PutObject \/ r = GetObject \/ r = GetMeta \/ r = GetVersions ->
  exists cf cb k q b, aq_route q = r /\ binder_of r = Some b /\ authenticate cf cb k q = None /\
  (forall t, cb t = Some 200%Z -> ct_file t = s2l "own"%string) /\
  acted_on no_json b q = Some (s2l "pics"%string, s2l "secret"%string).
Proof.
  intros r R.
  assert (forall t, cb_name (s2l "own"%string) t = Some 200%Z -> ct_file t = s2l "own"%string) as C.
  { intros t. unfold cb_name. destruct (bool_decide (ct_file t = s2l "own"%string)) eqn:E; [|discriminate].
    intros _. apply bool_decide_eq_true in E. exact E. }
  exists cf_cb, (cb_name (s2l "own"%string)), KNone,
    (mk_areq r (s2l "store:8080"%string) (s2l "pics"%string) [] (s2l "own"%string) [] pages heads None ([], []) []),
    (match binder_of r with Some b => b | None => put_req end).
  destruct R as [ -> |[ -> |[ -> | -> ]]]; (split; [reflexivity|]); (split; [reflexivity|]); (split; [vm_compute; reflexivity|]);
    (split; [exact C|vm_compute; reflexivity]).
Qed.
Print Assumptions C81_name_refuted.

Theorem C81_bucket_refuted : forall r, r = PutObject \/ r = GetObject \/ r = PostBig ->
  exists cf cb k q b, aq_route q = r /\ binder_of r = Some b /\ authenticate cf cb k q = None /\
  (forall t, cb t = Some 200%Z -> ct_bucket t = s2l "own"%string) /\
  acted_on no_json b q = Some (s2l "secret"%string, s2l "a.png"%string).
Proof.
  intros r R.
  assert (forall t, cb_only (s2l "own"%string) 403 t = Some 200%Z -> ct_bucket t = s2l "own"%string) as C.
  { intros t. unfold cb_only. destruct (bool_decide (ct_bucket t = s2l "own"%string)) eqn:E; [|discriminate].
    intros _. apply bool_decide_eq_true in E. exact E. }
  exists cf_cb, (cb_only (s2l "own"%string) 403), KNone,
    (mk_areq r (s2l "store:8080"%string) (s2l "own"%string) [] (s2l "a.png"%string) [] (stray "Bucket" "secret") heads None ([], []) []),
    (match binder_of r with Some b => b | None => put_req end).
  destruct R as [ -> |[ -> | -> ]]; (split; [reflexivity|]); (split; [reflexivity|]); (split; [vm_compute; reflexivity|]);
    (split; [exact C|vm_compute; reflexivity]).
Qed.
Print Assumptions C81_bucket_refuted.
