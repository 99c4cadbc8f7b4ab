(** The web console. *)
From Coq Require Import Ascii String List Bool Arith Lia.
From Verif Require Import Str_Model Str_Proofs Path_Model Url_Model Url_Proofs Web_Model Web_Spec Web_Proofs.
Import ListNotations.
Local Open Scope list_scope.

(** C180: a browser that asks for a page of the console by its address is led to that page with the
    parameters it gave. *)

(** It is sent to the index, for every address that is no file and not below /api. *)
Theorem C180_sent : forall fs port m p rq range,
  exists_file fs p = false -> begins (s2l "/api"%string) p = false -> p <> s2l "/favicon.ico"%string ->
  answers fs port m p rq range = Redirect (s2l "/?redirect="%string ++ p ++ "&"%char :: rq).
Proof.
  intros fs port m p rq range E A F. unfold answers. rewrite E. destruct (lookup routes m p) as [[q xs]|] eqn:L.
  - apply lookup_api in L. congruence.
  - unfold no_route. rewrite A. destruct (str_eqb p (s2l "/favicon.ico"%string)) eqn:Q; [apply str_eqb_eq in Q; contradiction|reflexivity].
Qed.
Print Assumptions C180_sent.

(** The index goes on to the page if its address has none of the characters that mean something in a query
    and the query has no parameter [redirect]. *)
(** Partial.  Full statement: A browser that asks the admin server for a page of the console by its
    address shows that page with the parameters of the address.  It fails in general:
    [C180_decoded_refuted], [C180_cut_refuted], [C180_lost_refuted].  Refuted: the path is put into
    the query unescaped, so & cuts it, # loses the parameters too, and + and % are decoded again. *)
Theorem C180_page_partial : forall p rq, without "&#%+" p -> ~ In "#"%char rq ->
  Forall (fun e => fst e <> s2l "redirect"%string) (params rq) ->
  index_goes (s2l "/?redirect="%string ++ ("/"%char :: p) ++ "&"%char :: rq) = Some ("/"%char :: p, params rq).
Proof.
  intros p rq W Hq F. rewrite (index_exact p rq); try assumption; try (apply (without_in _ _ _ W); cbn; tauto).
  rewrite plus_own, decode_own; [reflexivity| |]; intros [I|I]; try discriminate; revert I; apply (without_in _ _ _ W); cbn; tauto.
Qed.
Print Assumptions C180_page_partial.

(** So it is for all pages of the console. *)
Theorem C180_pages : forall page rq, In page pages -> ~ In "#"%char rq ->
  Forall (fun e => fst e <> s2l "redirect"%string) (params rq) ->
  forall fs port m range, exists_file fs page = false ->
  exists l, answers fs port m page rq range = Redirect l /\ index_goes l = Some (page, params rq).
Proof.
  intros page rq I Hq F fs port m range E. exists (s2l "/?redirect="%string ++ page ++ "&"%char :: rq).
  assert (exists p, page = "/"%char :: p /\ without "&#%+" p /\ begins (s2l "/api"%string) page = false /\ page <> s2l "/favicon.ico"%string) as (p & -> & W & B & N).
  { unfold pages in I. apply in_map_iff in I as (x & <- & I). cbn in I.
    repeat (destruct I as [<-|I]; [eexists; split; [reflexivity|]; split; [intros c C1 C2; cbn in C1, C2; intuition (subst; discriminate)|split; [reflexivity|discriminate]]|]). destruct I. }
  split; [apply C180_sent; assumption|]. apply C180_page_partial; assumption.
Qed.
Print Assumptions C180_pages.

(** Else it goes on to another one: the path is not escaped. *)
Theorem C180_decoded_refuted : forall p rq, ~ In "&"%char p -> ~ In "#"%char p -> ~ In "#"%char rq ->
  Forall (fun e => fst e <> s2l "redirect"%string) (params rq) ->
  index_goes (s2l "/?redirect="%string ++ ("/"%char :: p) ++ "&"%char :: rq) = Some (decode (plus_to_space ("/"%char :: p)), params rq).
Proof. exact index_exact. Qed.
Print Assumptions C180_decoded_refuted.
Theorem C180_cut_refuted : forall p b rq x ps, without "&#%+" p -> ~ In "#"%char b -> ~ In "#"%char rq ->
  index_goes (s2l "/?redirect="%string ++ (("/"%char :: p) ++ "&"%char :: b) ++ "&"%char :: rq) = Some (x, ps) -> x = "/"%char :: p.
Proof.
  intros p b rq x ps W Hb Hq H.
  refine (index_amp _ b rq x ps _ _ Hq _ _ H); try (intros [I|I]; [discriminate|]; revert I; apply (without_in _ _ _ W); cbn; tauto).
  intros [I|I]; [discriminate|]. apply in_app_or in I as [I|I]; [|contradiction]. revert I. apply (without_in _ _ _ W). cbn. tauto.
Qed.
Print Assumptions C180_cut_refuted.
Theorem C180_lost_refuted : forall p b rq, without "&#%+" p ->
  index_goes (s2l "/?redirect="%string ++ (("/"%char :: p) ++ "#"%char :: b) ++ "&"%char :: rq) = Some ("/"%char :: p, []).
Proof. intros p b rq W. apply index_hash; apply (without_in _ _ _ W); cbn; tauto. Qed.
Print Assumptions C180_lost_refuted.

Example C180_nonvacuous :
  In (s2l "/server/api"%string) pages /\ ~ In "#"%char (s2l "name=a%20b&version=2"%string) /\
  params (s2l "name=a%20b&version=2"%string) = [(s2l "name"%string, Some (s2l "a b"%string)); (s2l "version"%string, Some (s2l "2"%string))] /\
  index_goes (s2l "/?redirect=/metadata&name=a%20b&version=2"%string) =
    Some (s2l "/metadata"%string, [(s2l "name"%string, Some (s2l "a b"%string)); (s2l "version"%string, Some (s2l "2"%string))]) /\
  decode (plus_to_space (s2l "/c++%41"%string)) = s2l "/c  A"%string.
Proof. split; [cbn; tauto|]. split; [cbn; intuition discriminate|]. split; [vm_compute; reflexivity|]. split; vm_compute; reflexivity. Qed.

(** C181: requests to the API are not taken by the console, and only embedded files are sent. *)
Theorem C181_api : forall fs port m p rq range, begins (s2l "/api"%string) p = true ->
  answers fs port m p rq range = Nothing \/
  exists pat xs, answers fs port m p rq range = Handled pat xs /\ In (m, pat) routes /\ fits pat (segments p) = Some xs.
Proof.
  intros fs port m p rq range B. unfold answers. rewrite (exists_api fs p B). destruct (lookup routes m p) as [[pat xs]|] eqn:L.
  - right. exists pat, xs. split; [reflexivity|]. exact (lookup_in _ _ _ _ _ L).
  - left. unfold no_route. rewrite B. reflexivity.
Qed.
Print Assumptions C181_api.
Theorem C181_only : forall fs port m p rq range pat xs, answers fs port m p rq range = Handled pat xs -> begins (s2l "/api"%string) p = true.
Proof.
  intros fs port m p rq range pat xs H. unfold answers in H. destruct (exists_file fs p).
  - destruct (str_eqb p _); [discriminate|]. destruct (open fs _); discriminate.
  - destruct (lookup routes m p) as [[q ys]|] eqn:L; [exact (lookup_api _ _ _ _ L)|]. unfold no_route in H.
    destruct (begins _ p); [discriminate|]. destruct (str_eqb p _); discriminate.
Qed.
Print Assumptions C181_only.
Theorem C181_files : forall fs port m p rq range body, answers fs port m p rq range = Sent body ->
  begins (s2l "/api"%string) p = false /\
  exists d, (fs p = Some (File d) \/ p = s2l "/"%string /\ fs (s2l "/index.html"%string) = Some (File d)).
Proof.
  intros fs port m p rq range body H. unfold answers in H. destruct (exists_file fs p) eqn:E.
  - unfold exists_file in E. destruct (begins _ p); [discriminate|]. split; [reflexivity|]. clear H.
    destruct (str_eqb p (s2l "/"%string)) eqn:Q.
    + apply str_eqb_eq in Q. unfold open in E. destruct (fs (s2l "/index.html"%string)) as [[d|]|]; try discriminate. exists d. right. split; [exact Q|reflexivity].
    + unfold open in E. destruct (fs p) as [[d|]|]; try discriminate. exists d. left. reflexivity.
  - destruct (lookup routes m p) as [[q ys]|]; [discriminate|]. unfold no_route in H. destruct (begins _ p); [discriminate|]. destruct (str_eqb p _); discriminate.
Qed.
Print Assumptions C181_files.

Definition example_fs : tree := fun n =>
  if str_eqb n (s2l "/index.html"%string) then Some (File (s2l "<html>"%string))
  else if str_eqb n (s2l "/config.js"%string) then Some (File (s2l "window.backendPort = 80"%string))
  else if str_eqb n (s2l "/assets"%string) then Some Dir
  else if str_eqb n (s2l "/assets/vite.config.js"%string) then Some (File (s2l "export"%string))
  else if str_eqb n (s2l "/api/page.js"%string) then Some (File (s2l "api"%string)) else None.
Example C181_nonvacuous :
  let ask m p := answers example_fs (s2l "8080"%string) (s2l m) (s2l p) [] None in
  ask "GET"%string "/api/server/cpu/timeline"%string = Handled (api "server" [None; lit "timeline"]) [s2l "cpu"%string] /\
  ask "GET"%string "/api/page.js"%string = Nothing /\ ask "GET"%string "/"%string = Sent (Some (s2l "<html>"%string)) /\
  ask "GET"%string "/assets"%string = Redirect (s2l "/?redirect=/assets&"%string) /\ ask "GET"%string "/favicon.ico"%string = Nothing.
Proof. vm_compute. repeat split. Qed.

(** C182: the files of the console arrive as they are, whole or in ranges, and config.js tells the port of
    the server. *)
Theorem C182_whole : forall fs port m p rq d, fs p = Some (File d) -> begins (s2l "/api"%string) p = false ->
  p <> s2l "/index.html"%string -> p <> s2l "/"%string ->
  answers fs port m p rq None = Sent (Some (if ends (s2l "config.js"%string) p then config_js port else d)).
Proof.
  intros fs port m p rq d F B N1 N2. unfold answers, exists_file. rewrite B.
  destruct (str_eqb p (s2l "/"%string)) eqn:Q; [apply str_eqb_eq in Q; contradiction|].
  destruct (str_eqb p (s2l "/index.html"%string)) eqn:Q'; [apply str_eqb_eq in Q'; contradiction|].
  unfold open. rewrite F. destruct (ends (s2l "config.js"%string) p); reflexivity.
Qed.
Print Assumptions C182_whole.
Theorem C182_index : forall fs port m rq d, fs (s2l "/index.html"%string) = Some (File d) ->
  answers fs port m (s2l "/"%string) rq None = Sent (Some d).
Proof.
  intros fs port m rq d F. unfold answers, exists_file.
  replace (begins (s2l "/api"%string) (s2l "/"%string)) with false by (vm_compute; reflexivity).
  replace (str_eqb (s2l "/"%string) (s2l "/"%string)) with true by (vm_compute; reflexivity).
  replace (str_eqb (s2l "/"%string) (s2l "/index.html"%string)) with false by (vm_compute; reflexivity).
  unfold open. rewrite F. replace (ends (s2l "config.js"%string) (s2l "/index.html"%string)) with false by (vm_compute; reflexivity). reflexivity.
Qed.
Print Assumptions C182_index.
(** Partial.  Full statement: Every embedded file is sent with its bytes, whole or the range asked
    for, except config.js which tells the port of the server.  It fails in general:
    [C182_range_refuted], [C182_second_refuted], [C182_other_refuted].  Refuted: ranges of config.js
    are read from its start or refused behind the end of the embedded file, and every file whose
    name ends in config.js is replaced. *)
Theorem C182_range_partial : forall fs port m p rq d a b, fs p = Some (File d) -> begins (s2l "/api"%string) p = false ->
  p <> s2l "/index.html"%string -> p <> s2l "/"%string -> ends (s2l "config.js"%string) p = false -> a < List.length d ->
  exists out, answers fs port m p rq (Some (a, b)) = Sent (Some out) /\ bytes_of d a b out.
Proof.
  intros fs port m p rq d a b F B N1 N2 E L. unfold answers, exists_file. rewrite B.
  destruct (str_eqb p (s2l "/"%string)) eqn:Q; [apply str_eqb_eq in Q; contradiction|].
  destruct (str_eqb p (s2l "/index.html"%string)) eqn:Q'; [apply str_eqb_eq in Q'; contradiction|].
  unfold open. rewrite F, E. cbn [content]. apply Nat.ltb_lt in L. rewrite L. eexists. split; [reflexivity|]. apply slice_min.
Qed.
Print Assumptions C182_range_partial.

(** A range of config.js is taken from its start, or refused behind the end of the embedded file. *)
Theorem C182_range_refuted : forall port under a b, a < List.length (config_js port) ->
  content port (Config under) (Some (a, b)) =
    if a <=? List.length under then Some (firstn (S (Nat.min b (List.length (config_js port) - 1)) - a) (config_js port)) else None.
Proof. intros port under a b L. cbn [content]. apply Nat.ltb_lt in L. rewrite L. reflexivity. Qed.
Print Assumptions C182_range_refuted.
Theorem C182_second_refuted : forall port under, under <> [] ->
  exists out, content port (Config under) (Some (1, 1)) = Some out /\ ~ bytes_of (config_js port) 1 1 out.
Proof.
  intros port under N. exists [("w"%char)]. split.
  - rewrite C182_range_refuted by (unfold config_js; rewrite app_length; cbn; lia).
    destruct under as [|c u]; [contradiction|]. cbn [List.length Nat.leb].
    replace (Nat.min 1 (List.length (config_js port) - 1)) with 1 by (unfold config_js; rewrite app_length; cbn; lia). reflexivity.
  - intros H. specialize (H 0). discriminate H.
Qed.
Print Assumptions C182_second_refuted.
(** A file whose name only ends so is replaced. *)
Theorem C182_other_refuted : exists fs p d, fs p = Some (File d) /\ p <> s2l "/config.js"%string /\
  forall port m rq, answers fs port m p rq None = Sent (Some (config_js port)) /\ config_js port <> d.
Proof.
  exists example_fs, (s2l "/assets/vite.config.js"%string), (s2l "export"%string). split; [vm_compute; reflexivity|]. split; [discriminate|].
  intros port m rq. split; [|discriminate]. rewrite (C182_whole example_fs port m _ rq (s2l "export"%string)).
  - replace (ends _ _) with true by (vm_compute; reflexivity). reflexivity.
  - vm_compute. reflexivity.
  - vm_compute. reflexivity.
  - discriminate.
  - discriminate.
Qed.
Print Assumptions C182_other_refuted.

Example C182_nonvacuous :
  answers example_fs (s2l "8080"%string) (s2l "GET"%string) (s2l "/config.js"%string) [] None = Sent (Some (s2l "window.backendPort = 8080"%string)) /\
  answers (fun _ => Some (File (s2l "abcdef"%string))) [] (s2l "GET"%string) (s2l "/x.js"%string) [] (Some (2, 9)) = Sent (Some (s2l "cdef"%string)) /\
  (* behind the end of the embedded file, within the one sent *)
  content (s2l "8080"%string) (Config (s2l "window.backendPort = 80"%string)) (Some (24, 24)) = None.
Proof. vm_compute. repeat split. Qed.

(** C183: the console may make its requests from another origin. *)
(** Partial.  Full statement: Every request the console makes is allowed by the answer to the
    browser's question for another origin, and it may read the headers it needs.  It fails in
    general: [C183_delete_refuted].  Refuted: DELETE is not among the allowed methods, so no bucket
    can be removed from another origin. *)
Theorem C183_partial : forall m p, In (m, p) routes -> m <> s2l "DELETE"%string -> browser_lets m console_headers = true.
Proof.
  intros m p I N. unfold routes in I. apply in_map_iff in I as ([m' p'] & E & I). cbn [fst snd] in E. injection E as <- _.
  cbn in I. repeat (destruct I as [I|I]; [injection I as <- <-; first [reflexivity | contradiction N; reflexivity]|]). destruct I.
Qed.
Print Assumptions C183_partial.
Theorem C183_reads : forall h, In h console_reads -> In h cors_exposed.
Proof. intros h H. exact H. Qed.
Print Assumptions C183_reads.
(** A bucket cannot be removed. *)
Theorem C183_delete_refuted : forall n hs, exists m t, call_text (RemoveBucket n) = (m, t) /\
  In (m, api "metadata" [lit "delete_bucket"; None]) routes /\ browser_lets m hs = false.
Proof.
  intros n hs. eexists _, _. split; [reflexivity|]. split.
  - unfold routes. apply in_map_iff. exists ("DELETE"%string, api "metadata" [lit "delete_bucket"; None]). split; [reflexivity|]. cbn. tauto.
  - unfold browser_lets. match goal with |- ?x && _ = false => replace x with false by (vm_compute; reflexivity) end. reflexivity.
Qed.
Print Assumptions C183_delete_refuted.
Example C183_nonvacuous : In (s2l "PUT"%string, api "objects" [lit "upload"]) routes /\ In (s2l "X-Total-Count"%string) console_reads.
Proof. split; [unfold routes; apply in_map_iff; exists ("PUT"%string, api "objects" [lit "upload"]); split; [reflexivity|cbn; tauto]|cbn; tauto]. Qed.

(** C184: a request of the console reaches the route it is meant for, with the names it is about. *)
Theorem C184_plain : forall c, In c plain_calls -> forall fs port, exists p xs m,
  console_call fs port c = Got (Handled p xs) [] /\ In (m, p) routes /\ m = fst (call_text c).
Proof.
  intros c I fs port. cbn in I.
  repeat (destruct I as [<-|I]; [eexists _, _, _; split; [vm_compute; reflexivity|]; split; [|reflexivity]; vm_compute; tauto|]). destruct I.
Qed.
Print Assumptions C184_plain.

(** Partial.  Full statement: Each request of the console reaches its route in the admin server with
    the bucket, object and server it was made for.  It fails in general: [C184_delete_refuted],
    [C184_escaped_refuted], [C184_bucket_refuted].  Refuted: names are not escaped; removing bucket
    a?b or a#b removes bucket a. *)
Theorem C184_names_partial : forall fs port n b v, path_name n -> query_text b -> query_text v ->
  console_call fs port (RemoveBucket n) = Got (Handled (api "metadata" [lit "delete_bucket"; None]) [n]) [] /\
  console_call fs port (Join n) = Got (Handled (api "objects" [lit "join"; None]) [n]) [] /\
  console_call fs port (Leave n) = Got (Handled (api "objects" [lit "leave"; None]) [n]) [] /\
  exists q, console_call fs port (Download n b v) = Got (Handled (api "objects" [lit "download"; None]) [n]) q /\
    value q (s2l "version"%string) = Some v /\ value q (s2l "bucket"%string) = Some b.
Proof.
  intros fs port n b v N B V. apply path_name_no in N as (NE & S0 & H & Q & P).
  split; [|split; [|split]].
  - unfold console_call, call_text. change (s2l "/api"%string ++ s2l "/metadata/delete_bucket/"%string ++ n) with (del_path ++ n).
    rewrite asked_plain by (apply prefix_no; [cbn; intuition discriminate|assumption]). rewrite (answer_del fs port n [] NE S0). reflexivity.
  - unfold console_call, call_text. change (s2l "/api"%string ++ s2l "/objects/join/"%string ++ n) with (s2l "/api/objects/join/"%string ++ n).
    rewrite asked_plain by (apply prefix_no; [cbn; intuition discriminate|assumption]). rewrite (answer_join fs port n [] NE S0). reflexivity.
  - unfold console_call, call_text. change (s2l "/api"%string ++ s2l "/objects/leave/"%string ++ n) with (s2l "/api/objects/leave/"%string ++ n).
    rewrite asked_plain by (apply prefix_no; [cbn; intuition discriminate|assumption]). rewrite (answer_leave fs port n [] NE S0). reflexivity.
  - exists (s2l "version="%string ++ v ++ s2l "&bucket="%string ++ b). split; [|exact (value_two v b V B)].
    unfold console_call, call_text.
    replace (s2l "/api"%string ++ s2l "/objects/download/"%string ++ n ++ s2l "?version="%string ++ v ++ s2l "&bucket="%string ++ b)
      with ((get_path ++ n) ++ "?"%char :: (s2l "version="%string ++ v ++ s2l "&bucket="%string ++ b)) by (rewrite <- app_assoc; reflexivity).
    rewrite asked_query; try (apply prefix_no; [cbn; intuition discriminate|assumption]).
    + rewrite (answer_get fs port n _ NE S0). reflexivity.
    + destruct B as [B _], V as [V _]. apply prefix_no; [cbn; intuition discriminate|]. intros I. apply in_app_or in I as [I|I].
      * revert I. apply (without_in _ _ _ V). cbn. tauto.
      * revert I. apply prefix_no; [cbn; intuition discriminate|]. apply (without_in _ _ _ B). cbn. tauto.
Qed.
Print Assumptions C184_names_partial.

(** Names are not escaped: to remove the bucket [a?b], [a#b] or the one that is [a] escaped removes [a]. *)
Theorem C184_delete_refuted : forall fs port a b, path_name a ->
  (~ In "#"%char b -> console_call fs port (RemoveBucket (a ++ "?"%char :: b)) = Got (Handled (api "metadata" [lit "delete_bucket"; None]) [a]) b) /\
  console_call fs port (RemoveBucket (a ++ "#"%char :: b)) = console_call fs port (RemoveBucket a).
Proof.
  intros fs port a b N. apply path_name_no in N as (NE & S0 & H & Q & P). split.
  - intros Hb. unfold console_call, call_text.
    replace (s2l "/api"%string ++ s2l "/metadata/delete_bucket/"%string ++ a ++ "?"%char :: b) with ((del_path ++ a) ++ "?"%char :: b) by (rewrite <- app_assoc; reflexivity).
    rewrite asked_query; try (apply prefix_no; [cbn; intuition discriminate|assumption]); [|exact Hb]. rewrite (answer_del fs port a b NE S0). reflexivity.
  - unfold console_call, call_text.
    replace (s2l "/api"%string ++ s2l "/metadata/delete_bucket/"%string ++ a ++ "#"%char :: b) with ((del_path ++ a) ++ "#"%char :: b) by (rewrite <- app_assoc; reflexivity).
    rewrite asked_hash by (apply prefix_no; [cbn; intuition discriminate|assumption]). reflexivity.
Qed.
Print Assumptions C184_delete_refuted.
Theorem C184_escaped_refuted : forall fs port a, path_name a ->
  console_call fs port (RemoveBucket (escape EPath a)) = console_call fs port (RemoveBucket a).
Proof.
  intros fs port a N. apply path_name_no in N as (NE & S0 & H & Q & P). unfold console_call, call_text.
  change (s2l "/api"%string ++ s2l "/metadata/delete_bucket/"%string ++ ?x) with (del_path ++ x).
  assert (asked (del_path ++ escape EPath a) = Some (del_path ++ a, [])) as A.
  { assert (forall c, In c (escape EPath a) -> c <> "#"%char /\ c <> "?"%char) as K.
    { intros c I. apply (escaped_chars EPath a c) in I; [|discriminate]. tauto. }
    unfold asked. rewrite (before_none "#"%char). 2:{ apply prefix_no; [cbn; intuition discriminate|]. intros I. apply K in I. tauto. }
    rewrite (before_none "?"%char), (after_none "?"%char); try (apply prefix_no; [cbn; intuition discriminate|]; intros I; apply K in I; tauto).
    rewrite (unescape_pre EPath (del_path) (escape EPath a)); [|cbn; intuition discriminate|discriminate].
    rewrite (unescape_escape_path EPath a) by discriminate. reflexivity. }
  rewrite A, asked_plain by (apply prefix_no; [cbn; intuition discriminate|assumption]). reflexivity.
Qed.
Print Assumptions C184_escaped_refuted.
(** A download names another bucket. *)
Theorem C184_bucket_refuted : forall fs port n v a b, path_name n -> query_text v -> query_text a -> ~ In "#"%char b ->
  exists q, console_call fs port (Download n (a ++ "&"%char :: b) v) = Got (Handled (api "objects" [lit "download"; None]) [n]) q /\
    value q (s2l "bucket"%string) = Some a.
Proof.
  intros fs port n v a b N V B Hb. apply path_name_no in N as (NE & S0 & H & Q & P).
  exists (s2l "version="%string ++ v ++ s2l "&bucket="%string ++ a ++ "&"%char :: b). split; [|exact (value_amp v a b V B)].
  unfold console_call, call_text.
  replace (s2l "/api"%string ++ s2l "/objects/download/"%string ++ n ++ s2l "?version="%string ++ v ++ s2l "&bucket="%string ++ a ++ "&"%char :: b)
    with ((get_path ++ n) ++ "?"%char :: (s2l "version="%string ++ v ++ s2l "&bucket="%string ++ a ++ "&"%char :: b)) by (rewrite <- app_assoc; reflexivity).
  rewrite asked_query; try (apply prefix_no; [cbn; intuition discriminate|assumption]).
  - rewrite (answer_get fs port n _ NE S0). reflexivity.
  - destruct B as [B _], V as [V _]. apply prefix_no; [cbn; intuition discriminate|]. intros I. apply in_app_or in I as [I|I].
    + revert I. apply (without_in _ _ _ V). cbn. tauto.
    + revert I. apply prefix_no; [cbn; intuition discriminate|]. intros I. apply in_app_or in I as [I|[I|I]]; [|discriminate|contradiction].
      revert I. apply (without_in _ _ _ B). cbn. tauto.
Qed.
Print Assumptions C184_bucket_refuted.

Example C184_nonvacuous : path_name (s2l "my photo+1.png"%string) /\ query_text (s2l "photos=new"%string) /\ query_text (s2l "3"%string) /\
  In (Plainly "GET" "/server/cpu/timeline") plain_calls /\
  escape EPath (s2l "my photo+1.png"%string) <> s2l "my photo+1.png"%string.
Proof.
  assert (forall s t, forallb (fun c => negb (existsb (Ascii.eqb c) (s2l s))) t = true -> without s t) as K.
  { intros s t F c I J. rewrite forallb_forall in F. specialize (F c I). apply negb_true_iff in F.
    assert (existsb (Ascii.eqb c) (s2l s) = true) as X by (apply existsb_exists; exists c; split; [exact J|apply Ascii.eqb_refl]). congruence. }
  split; [|split; [|split; [|split]]].
  - split; [discriminate|]. split; [apply K; vm_compute; reflexivity|]. split; [vm_compute; reflexivity|]. split; discriminate.
  - split; [apply K; vm_compute; reflexivity|vm_compute; reflexivity].
  - split; [apply K; vm_compute; reflexivity|vm_compute; reflexivity].
  - cbn. tauto.
  - vm_compute. discriminate.
Qed.
