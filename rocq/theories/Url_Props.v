(** Theorems about names in URLs. *)
From Coq Require Import Ascii String List Bool.
From Verif Require Import Str_Model Str_Proofs Path_Model Url_Model Url_Spec Url_Proofs.
Import ListNotations.
Local Open Scope list_scope.

Lemma objects_plain : plain_route objects_route.
Proof. apply plain_check. vm_compute. reflexivity. Qed.
Lemma bucket_plain : plain_route bucket_route.
Proof. apply plain_check. vm_compute. reflexivity. Qed.
Lemma big_plain : plain_route big_route.
Proof. apply plain_check. vm_compute. reflexivity. Qed.
Lemma metadata_plain : plain_route metadata_route.
Proof. apply plain_check. vm_compute. reflexivity. Qed.

(** ** C124: a request is about the object that its path names *)

(** Which name is seen, exactly: the meaning if the element is written as [net/url] itself
    writes it, else the element as it stands. *)
Theorem C124_name_exact : forall r t n, plain_route r -> element t -> means t n ->
  api_param r (r ++ t) = SName (if str_eqb (escape EPath n) t then n else t).
Proof. intros r t n R E M. exact (param_exact false r t n R E M). Qed.
Print Assumptions C124_name_exact.

(** The full claim is [api_param r (r ++ t) = SName n].  It holds for elements written the
    usual way, and for those without escapes. *)
Theorem C124_name_partial : forall r t n, plain_route r -> element t -> means t n ->
  t = escape EPath n \/ ~ In "%"%char t -> api_param r (r ++ t) = SName n.
Proof.
  intros r t n R E M C. rewrite (C124_name_exact r t n R E M). f_equal. destruct C as [->|C].
  - rewrite str_eqb_refl. reflexivity.
  - pose proof (means_unescape t n M) as U. rewrite (unescape_own EPath t C) in U by discriminate. injection U as <-. destruct (str_eqb _ _); reflexivity.
Qed.
Print Assumptions C124_name_partial.

(** And for no others. *)
Theorem C124_name_only : forall r t n, plain_route r -> element t -> means t n ->
  api_param r (r ++ t) = SName n -> t = escape EPath n \/ t = n.
Proof.
  intros r t n R E M H. rewrite (C124_name_exact r t n R E M) in H. destruct (str_eqb (escape EPath n) t) eqn:Q.
  - left. symmetry. apply str_eqb_eq, Q.
  - right. injection H as H. exact H.
Qed.
Print Assumptions C124_name_only.

(** Every name without a slash can be reached. *)
Theorem C124_reachable : forall n, n <> [] -> ~ In "/"%char n ->
  api_param objects_route (objects_route ++ escape EPath n) = SName n.
Proof.
  intros n NE NS. apply C124_name_partial; [exact objects_plain| |apply means_escape; discriminate|left; reflexivity].
  split; [apply escape_nonempty; [discriminate|exact NE]|]. split; [apply escape_slash, NS|apply escaped_ctl; discriminate].
Qed.
Print Assumptions C124_reachable.

Definition el (s : string) : str := s2l s.

Lemma element_check : forall t, negb (str_eqb t []) && negb (existsb (Ascii.eqb "/"%char) t) && negb (existsb ctl t) = true -> element t.
Proof.
  intros t H. apply andb_true_iff in H as [H H3]. apply andb_true_iff in H as [H1 H2]. apply negb_true_iff in H1, H2, H3. split; [|split; [|exact H3]].
  - intros ->. rewrite str_eqb_refl in H1. discriminate H1.
  - intros I. assert (existsb (Ascii.eqb "/"%char) t = true) as Q; [|congruence]. apply existsb_exists. exists "/"%char. split; [exact I|reflexivity].
Qed.
Lemma means_check : forall t n, unescape EPath t = Some n -> means t n.
Proof. intros t n H. apply (unescape_means (List.length t)); [constructor|exact H]. Qed.

Example C124_case : element (el "a%20b,c") /\ means (el "a%20b,c") (el "a b,c") /\ el "a%20b,c" = escape EPath (el "a b,c") /\
  element (el "a!b") /\ means (el "a!b") (el "a!b") /\ ~ In "%"%char (el "a!b") /\
  api_param objects_route (objects_route ++ el "a%20b,c") = SName (el "a b,c").
Proof.
  split; [apply element_check; vm_compute; reflexivity|]. split; [apply means_check; vm_compute; reflexivity|]. split; [vm_compute; reflexivity|].
  split; [apply element_check; vm_compute; reflexivity|]. split; [apply means_check; vm_compute; reflexivity|].
  split; [vm_compute; intuition discriminate|vm_compute; reflexivity].
Qed.

(** One name written in two ways is two objects. *)
Theorem C124_two_refuted : exists t1 t2 n, element t1 /\ element t2 /\ means t1 n /\ means t2 n /\
  api_param objects_route (objects_route ++ t1) <> api_param objects_route (objects_route ++ t2).
Proof.
  exists (el "a,b"), (el "a%2Cb"), (el "a,b"). split; [apply element_check; vm_compute; reflexivity|]. split; [apply element_check; vm_compute; reflexivity|].
  split; [apply means_check; vm_compute; reflexivity|]. split; [apply means_check; vm_compute; reflexivity|]. vm_compute. discriminate.
Qed.
Print Assumptions C124_two_refuted.

(** Two names can be one object: an upload to one replaces the other. *)
Theorem C124_one_refuted : exists t1 t2 n1 n2 x, element t1 /\ element t2 /\ means t1 n1 /\ means t2 n2 /\ n1 <> n2 /\
  api_param objects_route (objects_route ++ t1) = SName x /\ api_param objects_route (objects_route ++ t2) = SName x.
Proof.
  exists (el "a%2Cb"), (el "a%252Cb"), (el "a,b"), (el "a%2Cb"), (el "a%2Cb").
  split; [apply element_check; vm_compute; reflexivity|]. split; [apply element_check; vm_compute; reflexivity|].
  split; [apply means_check; vm_compute; reflexivity|]. split; [apply means_check; vm_compute; reflexivity|].
  split; [vm_compute; discriminate|]. split; vm_compute; reflexivity.
Qed.
Print Assumptions C124_one_refuted.

(** Names with a slash are never seen as they are. *)
Theorem C124_slash_refuted : forall t n, element t -> means t n -> In "/"%char n ->
  exists x, api_param objects_route (objects_route ++ t) = SName x /\ x <> n.
Proof.
  intros t n E M I. rewrite (C124_name_exact objects_route t n objects_plain E M). destruct (str_eqb (escape EPath n) t) eqn:Q.
  - apply str_eqb_eq in Q. exfalso. apply E. rewrite <- Q. apply slash_escape, I.
  - exists t. split; [reflexivity|]. intros ->. apply E, I.
Qed.
Print Assumptions C124_slash_refuted.

Example C124_slash_case : element (el "a%2Fb") /\ means (el "a%2Fb") (el "a/b") /\ In "/"%char (el "a/b").
Proof. split; [apply element_check; vm_compute; reflexivity|]. split; [apply means_check; vm_compute; reflexivity|]. vm_compute. tauto. Qed.

(** ** C125: the admin server acts on the object or bucket it was asked for *)

(** Uploads, exactly. *)
Theorem C125_upload_exact : forall n, n <> [] ->
  admin_put n = RSeen (SName (if simple n then n else escape ESegment n)) [].
Proof. intros n NE. unfold admin_put, reach. rewrite (sent_segment objects_route n objects_plain), (seen_segment objects_route n objects_plain NE). reflexivity. Qed.
Print Assumptions C125_upload_exact.

(** They are right for names without comma, semicolon and slash, and for no others. *)
(** Partial.  Full statement: For every name the request of the admin server reaches the handler of
    the API server with exactly that name and version.  It fails in general: [C125_upload_refuted],
    [C125_download_query_refuted], [C125_download_hash_refuted], [C125_download_percent_refuted],
    [C125_again_refuted], [C125_bucket_refuted].  Refuted for the others: uploads are stored under
    the escaped name, downloads read another object in another version, changes and removals hit
    another bucket. *)
Theorem C125_upload_partial : forall n, n <> [] -> (admin_put n = RSeen (SName n) [] <-> simple n = true).
Proof.
  intros n NE. rewrite (C125_upload_exact n NE). destruct (simple n) eqn:E; [tauto|]. split; [|discriminate]. intros H. injection H as H.
  pose proof (segment_simple n) as Q. rewrite H in Q. congruence.
Qed.
Print Assumptions C125_upload_partial.

Example C125_upload_case : simple (el "100% sure? #1") = true /\ admin_put (el "100% sure? #1") = RSeen (SName (el "100% sure? #1")) [].
Proof. split; vm_compute; reflexivity. Qed.

Theorem C125_upload_refuted : admin_put (el "a,b") = RSeen (SName (el "a%2Cb")) [].
Proof. vm_compute. reflexivity. Qed.
Print Assumptions C125_upload_refuted.

(** Downloads are right for names without percent sign, question mark, hash, slash and
    control characters. *)
(** Partial; the full statement is at [C125_upload_partial]. *)
Theorem C125_download_partial : forall n v, good_name n -> ~ In "#"%char v -> existsb ctl v = false ->
  admin_get n v = RSeen (SName n) (s2l "version="%string ++ v).
Proof.
  intros n v G H C. unfold admin_get. apply (reach_query objects_route n (s2l "version="%string ++ v) objects_plain G).
  - intros I. apply in_app_or in I as [I|I]; [|contradiction]. cbn in I. intuition discriminate.
  - rewrite existsb_app, C. reflexivity.
Qed.
Print Assumptions C125_download_partial.

Lemma good_check : forall n, negb (str_eqb n []) && negb (existsb (fun c => isc c "%?#/" || ctl c) n) = true -> good_name n.
Proof.
  intros n H. apply andb_true_iff in H as [H1 H2]. apply negb_true_iff in H1, H2. split; [|exact H2]. intros ->. rewrite str_eqb_refl in H1. discriminate H1.
Qed.

Example C125_download_case : good_name (el "a b,c;d+e!") /\ admin_get (el "a b,c;d+e!") (el "3") = RSeen (SName (el "a b,c;d+e!")) (el "version=3").
Proof. split; [apply good_check; vm_compute; reflexivity|vm_compute; reflexivity]. Qed.

(** With a question mark another object is read, in its latest version. *)
Theorem C125_download_query_refuted : forall a b v, good_name a -> ~ In "#"%char (b ++ v) -> existsb ctl (b ++ v) = false ->
  admin_get (a ++ "?"%char :: b) v = RSeen (SName a) (b ++ s2l "?version="%string ++ v).
Proof.
  intros a b v G H C. unfold admin_get. rewrite <- app_assoc. cbn [app]. apply (reach_query objects_route a _ objects_plain G).
  - intros I. apply H. apply in_app_or in I as [I|I]; [apply in_or_app; left; exact I|]. apply in_app_or in I as [I|I]; [cbn in I; intuition discriminate|apply in_or_app; right; exact I].
  - rewrite existsb_app in C. apply orb_false_iff in C as [C1 C2]. rewrite !existsb_app, C1, C2. reflexivity.
Qed.
Print Assumptions C125_download_query_refuted.

(** With a hash too. *)
Theorem C125_download_hash_refuted : forall a b v x, good_name a -> unescape EPath (b ++ s2l "?version="%string ++ v) = Some x ->
  admin_get (a ++ "#"%char :: b) v = RSeen (SName a) [].
Proof. intros a b v x G U. unfold admin_get. rewrite <- app_assoc. cbn [app]. eapply (reach_hash objects_route a _ x objects_plain G), U. Qed.
Print Assumptions C125_download_hash_refuted.

(** And a name that is another one escaped is taken for that one. *)
Theorem C125_download_percent_refuted : forall n v, n <> [] -> ~ In "/"%char n -> ~ In "#"%char v -> existsb ctl v = false ->
  admin_get (escape EPath n) v = RSeen (SName n) (s2l "version="%string ++ v).
Proof.
  intros n v NE NS H C. unfold admin_get. apply (reach_escaped objects_route n (s2l "version="%string ++ v) objects_plain NE NS).
  - intros I. apply in_app_or in I as [I|I]; [|contradiction]. cbn in I. intuition discriminate.
  - rewrite existsb_app, C. reflexivity.
Qed.
Print Assumptions C125_download_percent_refuted.

(** Other names with a percent sign give an error. *)
Theorem C125_download_error : forall n v, ~ In "#"%char (n ++ v) -> ~ In "?"%char n -> unescape EPath n = None -> admin_get n v = RErr.
Proof.
  intros n v H Q U. unfold admin_get, reach, sent, parse_url.
  assert (~ In "#"%char (objects_route ++ n ++ s2l "?version="%string ++ v)) as N1.
  { intros I. apply in_app_or in I as [I|I]; [exact (route_notin _ "#"%char objects_plain eq_refl I)|]. apply in_app_or in I as [I|I]; [apply H, in_or_app; left; exact I|].
    apply in_app_or in I as [I|I]; [cbn in I; intuition discriminate|apply H, in_or_app; right; exact I]. }
  destruct (cut_before "#"%char _ N1) as [-> ->]. destruct (existsb ctl _); [reflexivity|]. cbn [unescape].
  assert (~ In "?"%char (objects_route ++ n)) as N2.
  { intros I. apply in_app_or in I as [I|I]; [exact (route_notin _ "?"%char objects_plain eq_refl I)|contradiction]. }
  change (objects_route ++ n ++ s2l "?version="%string ++ v) with (objects_route ++ n ++ "?"%char :: s2l "version="%string ++ v).
  rewrite app_assoc. destruct (cut_before_app "?"%char (objects_route ++ n) (s2l "version="%string ++ v) N2) as [-> _].
  unfold set_path. rewrite unescape_pre; [|apply route_pct, objects_plain|discriminate]. rewrite U. reflexivity.
Qed.
Print Assumptions C125_download_error.

(** Names with control characters are never sent, and a path that has one is refused. *)
Definition control (c : ascii) : Prop := (N_of_ascii c < 32 \/ N_of_ascii c = 127)%N.

Lemma ctl_iff : forall c, ctl c = true <-> control c.
Proof.
  intros c. unfold control. rewrite <- N.ltb_lt, <- N.eqb_eq, <- orb_true_iff.
  destruct c as [[] [] [] [] [] [] [] []]; vm_compute; split; intros H; congruence.
Qed.

Theorem C125_control : forall n v c, control c -> In c n -> ~ In "#"%char (n ++ v) ->
  admin_get n v = RErr /\ admin_bucket n = RErr /\ forall route p unesc, In c p -> param unesc route p = SBad.
Proof.
  intros n v c Hc Hn NH. apply ctl_iff in Hc.
  assert (A : forall t, In c t -> existsb ctl t = true) by (intros t Ht; apply existsb_exists; exists c; auto).
  assert (R : forall route t, In c t -> ~ In "#"%char t -> reach route t = RErr).
  { intros route t Ht N1. unfold reach, sent, parse_url. destruct (cut_before "#"%char _ N1) as [-> ->]. rewrite (A t Ht). reflexivity. }
  split; [|split].
  - apply R; [apply in_or_app; right; apply in_or_app; left; exact Hn|].
    intros I. apply in_app_or in I as [I|I]; [exact (route_notin _ "#"%char objects_plain eq_refl I)|]. apply in_app_or in I as [I|I]; [apply NH, in_or_app; left; exact I|].
    apply in_app_or in I as [I|I]; [cbn in I; intuition discriminate|apply NH, in_or_app; right; exact I].
  - apply R; [apply in_or_app; right; exact Hn|].
    intros I. apply in_app_or in I as [I|I]; [exact (route_notin _ "#"%char bucket_plain eq_refl I)|apply NH, in_or_app; left; exact I].
  - intros route p unesc Hp. unfold param, parse_request. rewrite (A p Hp). reflexivity.
Qed.
Print Assumptions C125_control.

Example C125_control_case : control "010"%char /\ In "010"%char (el "a" ++ ["010"%char]) /\ ~ In "#"%char ((el "a" ++ ["010"%char]) ++ el "3").
Proof. split; [left; vm_compute; reflexivity|]. split; [vm_compute; auto|vm_compute; intuition discriminate]. Qed.

Example C125_download_odd_cases :
  admin_get (el "a?b") (el "3") = RSeen (SName (el "a")) (el "b?version=3") /\
  admin_get (el "a#b") (el "3") = RSeen (SName (el "a")) [] /\
  admin_get (el "100%25") (el "3") = RSeen (SName (el "100%")) (el "version=3") /\
  admin_get (el "50%") (el "3") = RErr /\ unescape EPath (el "50%") = None /\ good_name (el "a").
Proof. repeat split; try (vm_compute; reflexivity). vm_compute. discriminate. Qed.

(** What was uploaded can be downloaded under its name, for names without any of these
    characters. *)
(** Partial; the full statement is at [C125_upload_partial]. *)
Theorem C125_again_partial : forall n v, good_name n -> simple n = true -> ~ In "#"%char v -> existsb ctl v = false ->
  exists q q', admin_put n = RSeen (SName n) q /\ admin_get n v = RSeen (SName n) q'.
Proof.
  intros n v G S H C. do 2 eexists. split.
  - apply C125_upload_partial; [apply G|exact S].
  - apply C125_download_partial; assumption.
Qed.
Print Assumptions C125_again_partial.

Example C125_again_case : good_name (el "x y") /\ simple (el "x y") = true.
Proof. split; [apply good_check; vm_compute; reflexivity|vm_compute; reflexivity]. Qed.

Theorem C125_again_refuted : exists n m1 m2 q1 q2, good_name n /\ admin_put n = RSeen (SName m1) q1 /\ admin_get n (el "1") = RSeen (SName m2) q2 /\ m1 <> m2.
Proof.
  exists (el "a,b"), (el "a%2Cb"), (el "a,b"), [], (el "version=1"). split; [apply good_check; vm_compute; reflexivity|].
  split; [vm_compute; reflexivity|]. split; [vm_compute; reflexivity|]. vm_compute. discriminate.
Qed.
Print Assumptions C125_again_refuted.

(** Changes and removals of buckets. *)
(** Partial; the full statement is at [C125_upload_partial]. *)
Theorem C125_bucket_partial : forall n, good_name n -> admin_bucket n = RSeen (SName n) [].
Proof. intros n G. apply (reach_plain bucket_route n bucket_plain G). Qed.
Print Assumptions C125_bucket_partial.

(** Of [a?b] and [a#b] it is the bucket [a] that is changed or removed. *)
Theorem C125_bucket_refuted : forall a b x, good_name a ->
  (~ In "#"%char b -> existsb ctl b = false -> admin_bucket (a ++ "?"%char :: b) = RSeen (SName a) b) /\
  (unescape EPath b = Some x -> admin_bucket (a ++ "#"%char :: b) = RSeen (SName a) []).
Proof.
  intros a b x G. split.
  - intros H C. exact (reach_query bucket_route a b bucket_plain G H C).
  - intros U. exact (reach_hash bucket_route a b x bucket_plain G U).
Qed.
Print Assumptions C125_bucket_refuted.

Example C125_bucket_case : good_name (el "logs") /\ admin_bucket (el "logs") = RSeen (SName (el "logs")) [] /\
  admin_bucket (el "logs?old") = RSeen (SName (el "logs")) (el "old") /\ admin_bucket (el "logs#1") = RSeen (SName (el "logs")) [].
Proof. split; [apply good_check; vm_compute; reflexivity|]. repeat split; vm_compute; reflexivity. Qed.

(** ** C126: tokens of uploads *)

(** A token comes back as it was given, also when the client parses the address. *)
Theorem C126_token : forall token, token <> [] -> Forall (fun c => base64_char c = true) token ->
  sent (token_location token) = Some (token_location token, []) /\ token_read (token_location token) = Some token.
Proof.
  intros token NE F. assert (~ In "%"%char token) as NP.
  { intros I. rewrite Forall_forall in F. apply F in I. discriminate I. }
  split; [apply (sent_segment big_route token big_plain)|]. unfold token_read, token_location. rewrite (seen_segment big_route token big_plain NE).
  destruct (simple token).
  - apply unescape_own; [exact NP|discriminate].
  - rewrite (unescape_segment (List.length (escape ESegment token))) by constructor. apply unescape_escape_path. discriminate.
Qed.
Print Assumptions C126_token.

Example C126_token_case : Forall (fun c => base64_char c = true) (el "ab+/cd==") /\ token_location (el "ab+/cd==") = el "/v1/big/ab+%2Fcd==".
Proof. split; [repeat constructor|vm_compute; reflexivity]. Qed.

(** ** C127: names and directions of the metadata server's pages *)

(** An element without a plus is read as what it means, slashes and all. *)
(** Partial.  Full statement: The metadata server takes an element of a path for the name it means,
    and the address it gives for another server leads to the same page there.  It fails in general:
    [C127_plus_refuted], [C127_location_refuted].  Refuted: plus signs in an id are read as spaces;
    directions lose usual paths and all queries. *)
Theorem C127_name_partial : forall r t n, plain_route r -> element t -> means t n -> ~ In "+"%char t -> meta_param r (r ++ t) = SName n.
Proof.
  intros r t n R E M P. unfold meta_param. rewrite (param_exact true r t n R E M). rewrite (query_no_plus (List.length t)) by (constructor || exact P).
  rewrite (means_unescape t n M). destruct (str_eqb _ _); reflexivity.
Qed.
Print Assumptions C127_name_partial.

Example C127_name_case : element (el "b%2Fa%2Cc") /\ means (el "b%2Fa%2Cc") (el "b/a,c") /\ ~ In "+"%char (el "b%2Fa%2Cc") /\
  meta_param metadata_route (metadata_route ++ el "b%2Fa%2Cc") = SName (el "b/a,c").
Proof.
  split; [apply element_check; vm_compute; reflexivity|]. split; [apply means_check; vm_compute; reflexivity|].
  split; [vm_compute; intuition discriminate|vm_compute; reflexivity].
Qed.

(** The full claim is without the condition on plus signs.  The id of an object, bucket and
    name with a slash between, is read with spaces for the plus signs in it. *)
Theorem C127_plus_refuted : forall id, In "/"%char id -> In "+"%char id ->
  meta_param metadata_route (metadata_route ++ escape ESegment id) = SName (plus_space id) /\ plus_space id <> id.
Proof.
  intros id S P. split; [|apply plus_space_not, P]. unfold meta_param.
  assert (id <> []) as NE by (intros ->; destruct S).
  rewrite (param_exact true metadata_route _ id metadata_plain (segment_element id NE)); [|apply means_escape; discriminate].
  rewrite query_segment. destruct (str_eqb (escape EPath id) (escape ESegment id)) eqn:E; [|reflexivity].
  apply str_eqb_eq in E. symmetry in E. apply escape_agree in E. unfold simple in E. apply negb_true_iff in E.
  assert (existsb (fun c => isc c ",;/") id = true) as Q; [|congruence]. apply existsb_exists. exists "/"%char. split; [exact S|reflexivity].
Qed.
Print Assumptions C127_plus_refuted.

Example C127_plus_case : In "/"%char (el "b/x+y") /\ In "+"%char (el "b/x+y") /\
  meta_param metadata_route (metadata_route ++ el "b%2Fx+y") = SName (el "b/x y").
Proof. repeat split; vm_compute; tauto. Qed.

(** Directions to another server: the full claim is that they end with path and query of the
    request.  Paths written the usual way are left out altogether, and so are all queries. *)
Theorem C127_location_refuted : forall ip r n q u, plain_route r -> parse_request (r ++ escape EPath n) = Some u ->
  peer_location ip u q = s2l "http://"%string ++ ip.
Proof.
  intros ip r n q u R H. unfold parse_request in H. destruct (existsb ctl _); [discriminate H|].
  rewrite (set_path_route r (escape EPath n) n R) in H by (apply means_escape; discriminate). rewrite str_eqb_refl in H. injection H as <-.
  unfold peer_location. cbn [u_raw]. rewrite app_nil_r. reflexivity.
Qed.
Print Assumptions C127_location_refuted.

Example C127_location_case : parse_request (metadata_route ++ escape EPath (el "a")) = Some (mk_upath (el "/metadata/a") []).
Proof. vm_compute. reflexivity. Qed.

(** Other paths are kept. *)
(** Partial; the full statement is at [C127_name_partial]. *)
Theorem C127_location_partial : forall ip r t n u, plain_route r -> element t -> means t n -> t <> escape EPath n ->
  parse_request (r ++ t) = Some u -> peer_location ip u [] = s2l "http://"%string ++ ip ++ r ++ t.
Proof.
  intros ip r t n u R (NE & NS & NC) M N H. unfold parse_request in H. rewrite existsb_app, (route_ctl r R), NC in H. cbn [orb] in H.
  rewrite (set_path_route r t n R M), (str_eqb_false (escape EPath n) t) in H by congruence. injection H as <-. reflexivity.
Qed.
Print Assumptions C127_location_partial.

Example C127_location_kept_case : el "b%2Fa" <> escape EPath (el "b/a") /\ element (el "b%2Fa") /\ means (el "b%2Fa") (el "b/a") /\
  parse_request (metadata_route ++ el "b%2Fa") = Some (mk_upath (el "/metadata/b/a") (el "/metadata/b%2Fa")).
Proof.
  split; [vm_compute; discriminate|]. split; [apply element_check; vm_compute; reflexivity|]. split; [apply means_check; vm_compute; reflexivity|]. vm_compute. reflexivity.
Qed.
