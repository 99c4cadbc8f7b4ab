(** * The calls of the API server to the metadata servers: theorems C63 to C66 *)
From Verif Require Import Str_Model Str_Spec Meta_Model Meta_Spec Meta_Proofs Meta_Props Rpc_Model Rpc_Spec Rpc_Proofs.
From stdpp Require Import gmap.
Local Open Scope list_scope.
Local Notation length := List.length.

(** ** Concrete data for the examples *)

Definition body (ds : Z) : eversion :=
  mk_eversion true (s2l "h") 1 0 10 0 ds 2 3 [s2l "10.0.0.1:80"; s2l "10.0.0.2:80"].
Definition ebkt (ds : Z) (ro : bool) : ebucket := mk_ebucket true ro false 1 ds 2 3 0 0 (s2l "bkt") [].
Definition start : list hop := cmds [AddMetadata (s2l "obj") (md 1); AddVersion (s2l "obj") (ver (s2l "h") (s2l "u") 1 0)].

Local Notation "'a'" := (s2l "obj" : str) (only parsing).

Lemma body_good : good_version (body 4).
Proof. constructor; cbn; unfold fits; try (split; [lia|done]); try lia; done. Qed.

Lemma ebkt_good : forall ro, good_bucket (ebkt 4 ro).
Proof. intros ro. constructor; cbn; unfold fits; try lia; done. Qed.

(** ** C63 What is saved is read back *)

(** For every history of the metadata server with numbers below 2^31: a version with a
    fresh unique id, all required fields and numbers that fit the message is saved under
    a number that was not in use, is read back as it was given (with that number and the
    time), and everything else is as before. *)
(** Partial.  Full statement: A version, a bucket or metadata that the API server saves with success
    is afterwards read back by it with exactly the values given (plus the number and the times the
    server adds); removing a version removes that version and nothing else; a call that fails
    changes nothing.  It fails in general: [C63_narrowing_refuted], [C63_bucket_refuted].  Refuted
    beyond int32 (the number of shards is cut silently) and for creating a bucket that exists with
    other settings (answered with success, old settings stay). *)
Theorem C63_version_partial : forall B ops now (uid id : str) body, history B ops ->
  (B + N.of_nat (length ops) + 1 < 2 ^ 31)%N ->
  d_meta (hrun db_empty ops) !! id <> None -> id <> [] ->
  Forall (fun o => ~ is_call (uses_id uid) o) ops -> uid <> [] -> good_version body ->
  exists n d', c_save_version now uid id body (hrun db_empty ops) = (d', inl n) /\ (0 < n)%Z /\
    c_get_version id n (hrun db_empty ops) = inr 404%Z /\
    c_get_version id n d' = inl (saved_version n now body) /\
    same_but_version id n (hrun db_empty ops) d' /\
    d_meta d' = d_meta (hrun db_empty ops) /\ d_bkt d' = d_bkt (hrun db_empty ops).
Proof. exact save_version_reads. Qed.

(** Without the bounds the claim is false: a number of shards beyond int32 is saved as
    another one, and the call succeeds. *)
Theorem C63_narrowing_refuted : exists ops now uid id b n d',
  history 0 ops /\ c_save_version now uid id b (hrun db_empty ops) = (d', inl n) /\
  c_get_version id n d' = inl (saved_version n now (body 4)) /\ ev_ds b = (2 ^ 32 + 4)%Z.
Proof.
  exists start, 5%Z, (s2l "w"), a, (body (2 ^ 32 + 4)), 2%Z,
    (fst (c_save_version 5 (s2l "w") a (body (2 ^ 32 + 4)) (hrun db_empty start))).
  split; [apply cmds_history; [repeat constructor|vm_compute; done]|].
  split; [|split; [vm_compute; reflexivity|reflexivity]].
  apply injective_projections; [reflexivity|vm_compute; reflexivity].
Qed.

(** Removing: a number that exists goes, and nothing else; numbers <= 0 are refused, so
    is one that does not exist. *)
Theorem C63_remove : forall (id : str) n d,
  ((n <= 0)%Z -> c_remove_version id n d = (d, CInvalid)) /\
  ((0 < n < 2 ^ 31)%Z -> id <> [] -> get_ver id (Z.to_N n) d = None -> d_vers d !! id <> None ->
   c_remove_version id n d = (d, CNotFound)) /\
  ((0 < n < 2 ^ 31)%Z -> id <> [] -> get_ver id (Z.to_N n) d <> None ->
   exists d', c_remove_version id n d = (d', COk) /\ c_get_version id n d' = inr 404%Z /\
     same_but_version id n d d' /\ d_meta d' = d_meta d /\ d_bkt d' = d_bkt d).
Proof.
  intros id n d. split; [apply remove_refused|split; [apply remove_missing|apply remove_removes]].
Qed.

(** A new bucket whose numbers fit is read back as it was given, and no other bucket
    changes. *)
(** Partial; the full statement is at [C63_version_partial]. *)
Theorem C63_bucket_partial : forall now body d, good_bucket body -> d_bkt d !! eb_name body = None ->
  exists d', c_save_bucket now body d = (d', None) /\
    c_get_bucket (eb_name body) d' = inl (saved_bucket now body) /\
    (forall other, other <> eb_name body -> c_get_bucket other d' = c_get_bucket other d) /\
    d_meta d' = d_meta d /\ d_vers d' = d_vers d.
Proof. exact save_bucket_reads. Qed.

(** A bucket that exists stays as it is, and the call succeeds: its new settings are
    lost without an error. *)
Theorem C63_bucket_refuted : exists now b d,
  good_bucket b /\ snd (c_save_bucket now b d) = None /\
  c_get_bucket (eb_name b) (fst (c_save_bucket now b d)) <> inl (saved_bucket now b) /\
  c_get_bucket (eb_name b) (fst (c_save_bucket now b d)) = inl (saved_bucket 1 (ebkt 4 false)).
Proof.
  exists 5%Z, (ebkt 4 true), (fst (c_save_bucket 1 (ebkt 4 false) db_empty)).
  split; [apply ebkt_good|split; [vm_compute; reflexivity|split; [vm_compute; discriminate|vm_compute; reflexivity]]].
Qed.

(** New metadata is stored with the time, with no versions; nothing else changes. *)
Theorem C63_metadata : forall now (id name bucket : str) d, id <> [] -> name <> [] -> bucket <> [] ->
  d_meta d !! id = None -> d_vers d !! id = None ->
  exists d', c_save_metadata now id name bucket d = (d', None) /\
    d_meta d' = <[ id := mk_metadata name bucket now now ]> (d_meta d) /\
    d_vers d' = <[ id := mk_vbucket 0 ∅ ]> (d_vers d) /\ d_bkt d' = d_bkt d.
Proof. exact save_metadata_adds. Qed.

Example C63_nonvacuous :
  history 0 start /\ (0 + N.of_nat (length start) + 1 < 2 ^ 31)%N /\ d_meta (hrun db_empty start) !! a <> None /\
  Forall (fun o => ~ is_call (uses_id (s2l "w")) o) start /\ good_version (body 4) /\ good_bucket (ebkt 4 true) /\
  snd (c_save_version 5 (s2l "w") a (body 4) (hrun db_empty start)) = inl 2%Z /\
  get_ver a 1 (hrun db_empty start) <> None /\
  snd (c_remove_version a 1 (hrun db_empty start)) = COk /\
  c_remove_version a 9 (hrun db_empty start) = (hrun db_empty start, CNotFound) /\
  d_bkt (hrun db_empty start) !! eb_name (ebkt 4 true) = None /\
  d_meta (hrun db_empty start) !! (s2l "new" : str) = None /\ d_vers (hrun db_empty start) !! (s2l "new" : str) = None.
Proof.
  split; [apply cmds_history; [repeat constructor|vm_compute; done]|].
  split; [vm_compute; done|]. split; [vm_compute; discriminate|].
  split. { apply cmds_not. constructor; [|constructor; [|constructor]]; intros [(i & v & E & H)|(i & v & E & H)];
    first [discriminate E|injection E; intros; subst; discriminate H]. }
  split; [exact body_good|]. split; [apply ebkt_good|].
  split; [vm_compute; reflexivity|]. split; [vm_compute; discriminate|]. split; [vm_compute; reflexivity|].
  split; [|split; [vm_compute; reflexivity|split; vm_compute; reflexivity]].
  apply (proj1 (proj2 (C63_remove a 9 (hrun db_empty start)))); [lia|discriminate|vm_compute; reflexivity|vm_compute; discriminate].
Qed.

Print Assumptions C63_version_partial.
Print Assumptions C63_narrowing_refuted.
Print Assumptions C63_remove.
Print Assumptions C63_bucket_partial.
Print Assumptions C63_bucket_refuted.
Print Assumptions C63_metadata.
Print Assumptions C63_nonvacuous.

(** ** C64 The locations of repaired pieces are recorded *)

(** The handler does it: a request that names the version replaces it, keeping hash,
    unique id and number, and changes nothing else. *)
(** Partial.  Full statement: When reading an object repairs missing pieces onto other servers, the
    version's recorded locations become the new ones.  It fails in general: [C64_repair_refuted]. *)
Theorem C64_handler_partial : forall d now (id : str) n v o, (0 < n < 2 ^ 31)%Z -> id <> [] ->
  valid_version v = true -> get_ver id (Z.to_N n) d = Some o -> (v_ts o < now)%Z ->
  exists d', h_update_version now (mk_preq id n) v d = (d', None) /\
    get_ver id (Z.to_N n) d' = Some (keep_identity o (stamp_update now n v)) /\
    same_but_version id n d d'.
Proof. exact update_handler. Qed.

(** But the API server does not name the version: whatever object was repaired, its
    update is refused and the database stays as it was. *)
Theorem C64_repair_refuted : forall now id b locates d,
  record_repair now id b locates d = (d, Some 400%Z).
Proof. intros now id b locates d. apply update_refused. Qed.

(** Asked with the number, the handler records the new locations of this version; asked
    as the API server does, it does not. *)
Example C64_nonvacuous : let d := hrun db_empty start in
  let l := [s2l "10.0.0.9:80"; s2l "10.0.0.2:80"] in
  let v := wire_version 1 (with_locate l (body 4)) in
  valid_version v = true /\ (exists o, get_ver a 1 d = Some o /\ (v_ts o < 7)%Z /\ v_locate o <> l) /\
  option_map v_locate (get_ver a 1 (fst (h_update_version 7 (mk_preq a 1) v d))) = Some l /\
  option_map v_locate (get_ver a 1 (fst (record_repair 7 a (body 4) l d))) = Some [s2l "s1"; s2l "s2"].
Proof.
  cbv zeta. split; [vm_compute; reflexivity|]. split; [|split; vm_compute; reflexivity].
  exists (ver (s2l "h") (s2l "u") 1 1). split; [vm_compute; reflexivity|split; [vm_compute; reflexivity|vm_compute; discriminate]].
Qed.

Print Assumptions C64_handler_partial.
Print Assumptions C64_repair_refuted.
Print Assumptions C64_nonvacuous.

(** ** C65 Errors keep their kind on the way to the client *)

(** A handler reports success only for an entry the state machine answered with success. *)
Theorem C65_told :
  (forall x, raft_err x = None <-> exists st n, x = RStatus st n /\ is_ok st = true) /\
  (forall now q v d d', h_update_version now q v d = (d', None) -> exists c st n, dispatch (command true c) d = (d', RStatus st n) /\ is_ok st = true) /\
  (forall q d d', h_remove_version q d = (d', None) -> exists c st n, dispatch (command true c) d = (d', RStatus st n) /\ is_ok st = true) /\
  (forall now q m d d', h_save_metadata now q m d = (d', None) -> exists c st n, dispatch (command true c) d = (d', RStatus st n) /\ is_ok st = true) /\
  (forall now q b d d', h_save_bucket now q b d = (d', None) -> exists c st n, dispatch (command true c) d = (d', RStatus st n) /\ is_ok st = true).
Proof. exact handlers_told. Qed.
Print Assumptions C65_told.

Example C65_told_case : exists d', h_save_bucket 5 (mk_preq a 0) (mk_bucket false false false 0 0 0 0 0 0 [] []) db_empty = (d', None) /\
  raft_err (RStatus 404 None) = Some (GResp 404) /\ raft_err RErr = Some GOther.
Proof. eexists. split; [vm_compute; reflexivity|]. split; reflexivity. Qed.


(** An error of a service of the metadata server, turned into a gRPC status, resolved by
    the API server and answered over HTTP: no error becomes a success or the other way
    round, failed validation, 400 and 404 arrive as 400, 400 and 404, the server's own
    failures as 500; a missing version or bucket is answered 404. *)
(** Partial.  Full statement: An error of the metadata server reaches the HTTP client as the same
    kind: not found as 404, the client's mistakes as 400, lack of rights as 401/403, the server's
    failures as 5xx, and never as a success.  It fails in general: [C65_validation_refuted],
    [C65_list_refuted], [C65_rights_refuted].  Refuted for versions that fail validation (always
    500), for listing versions of a missing object (always 500) and for 401/403/409 and redirects. *)
Theorem C65_kinds_partial :
  (forall e, class (http_of e) = 2%Z <-> exists st, e = GResp st /\ is_ok st = true) /\
  http_of GValid = 400%Z /\ http_of (GResp 400) = 400%Z /\ http_of (GResp 404) = 404%Z /\
  http_of GOther = 500%Z /\ (forall st, is_internal st = true -> http_of (GResp st) = 500%Z) /\
  (forall (id : str) n d, id <> [] -> (0 < n)%Z -> get_ver id (Z.to_N n) d = None -> c_get_version id n d = inr 404%Z).
Proof.
  split; [exact http_ok_iff|]. split; [reflexivity|]. split; [reflexivity|]. split; [reflexivity|].
  split; [reflexivity|]. split; [exact http_internal|]. intros id n d H1 H2 H3. by apply get_version_none.
Qed.

(** A version with a missing field is the client's fault, but it is always answered 500:
    the status made by the validation is taken for an unknown error. *)
Theorem C65_validation_refuted : forall now (uid id : str) b d, id <> [] -> incomplete b ->
  c_save_version now uid id b d = (d, inr 500%Z).
Proof. exact save_version_incomplete. Qed.

(** Listing the versions of an object that does not exist is answered 500, not 404. *)
Theorem C65_list_refuted : forall (id : str) page size_ d, id <> [] -> (0 < page < 2 ^ 31)%Z -> (0 < size_ < 2 ^ 31)%Z ->
  d_vers d !! id = None -> c_list_version id page size_ d = inr 500%Z.
Proof.
  intros id page size_ d Hi Hp Hs H. unfold c_list_version, h_list_version.
  rewrite !signed_id32 by (unfold fits; change (2 ^ (32 - 1))%Z with (2 ^ 31)%Z; lia).
  rewrite bool_decide_false by done. destruct (Z.leb_spec page 0); [lia|]. destruct (Z.leb_spec size_ 0); [lia|].
  cbn [orb]. unfold service_list_versions, list_versions. by rewrite H.
Qed.

(** A page or a size that is not positive, and a missing id, are refused as the caller's
    fault. *)
Theorem C65_pages : forall (id : str) page size_ d, (- 2 ^ 31 <= page < 2 ^ 31)%Z -> (- 2 ^ 31 <= size_ < 2 ^ 31)%Z ->
  id = [] \/ (page <= 0)%Z \/ (size_ <= 0)%Z ->
  h_list_version id page size_ d = inr (GCode CInvalid) /\ c_list_version id page size_ d = inr 400%Z.
Proof.
  intros id page size_ d Hp Hs H. assert (E : h_list_version id page size_ d = inr (GCode CInvalid)).
  { unfold h_list_version. destruct (bool_decide_reflect (id = [])) as [|Ne]; [reflexivity|].
    destruct H as [->|[H|H]]; [congruence| |]; destruct (Z.leb_spec page 0); try lia; destruct (Z.leb_spec size_ 0); try lia; reflexivity. }
  split; [exact E|]. unfold c_list_version. rewrite !signed_id32 by (unfold fits; change (2 ^ (32 - 1))%Z with (2 ^ 31)%Z; lia).
  rewrite E. reflexivity.
Qed.
Print Assumptions C65_pages.

Example C65_pages_case : c_list_version a 0 10 db_empty = inr 400%Z /\ c_list_version a 1 (-3) db_empty = inr 400%Z /\ c_list_version [] 1 10 db_empty = inr 400%Z.
Proof. split; [vm_compute; reflexivity|]. split; vm_compute; reflexivity. Qed.

(** Refusals for lack of rights, and a request sent to the wrong server, arrive as
    another kind. *)
Theorem C65_rights_refuted :
  http_of (GResp 401) = 500%Z /\ http_of (GResp 403) = 500%Z /\ http_of (GResp 409) = 500%Z /\
  resolve CAborted = Some 400%Z.
Proof. repeat split. Qed.

Example C65_nonvacuous : let d := hrun db_empty start in
  incomplete (body 0) /\ d_vers d !! (s2l "gone" : str) = None /\ get_ver a 7 d = None /\
  snd (c_save_version 5 (s2l "w") a (body 0) d) = inr 500%Z /\
  c_get_version a 7 d = inr 404%Z /\ c_list_version (s2l "gone") 1 10 d = inr 500%Z /\ http_of (GResp 502) = 500%Z.
Proof. cbv zeta. split; [right; left; reflexivity|]. vm_compute. repeat split. Qed.

Print Assumptions C65_kinds_partial.
Print Assumptions C65_validation_refuted.
Print Assumptions C65_list_refuted.
Print Assumptions C65_rights_refuted.
Print Assumptions C65_nonvacuous.

(** ** C66 The HTTP helpers answer with the status in their name *)

(** Partial.  Full statement: Each helper of package response answers with the status its name or
    its error says.  It fails in general: [C66_unavailable_refuted]. *)
Theorem C66_status_partial :
  answered r_ok = 200%Z /\ answered r_ok_json = 200%Z /\ answered r_created = 201%Z /\ answered r_created_json = 201%Z /\
  answered r_no_content = 204%Z /\ answered r_not_found = 404%Z /\ answered r_not_found_msg = 404%Z /\
  answered r_bad_request = 400%Z /\
  (forall st, answered (fail_err (GResp st)) = st) /\ answered (fail_err GValid) = 400%Z /\
  (forall c, answered (fail_err (GCode c)) = 500%Z) /\ answered (fail_err GOther) = 500%Z.
Proof.
  repeat (split; [reflexivity|]). split; [|split; [reflexivity|split; [intros c; reflexivity|reflexivity]]].
  intros st. unfold fail_err. by destruct (is_ok st).
Qed.

(** "Service unavailable" is answered 200: a client starting a resumable upload while no
    data server is up is told that it succeeded. *)
Theorem C66_unavailable_refuted : answered r_service_unavailable = 200%Z.
Proof. reflexivity. Qed.

(** Once a body is written the status stays. *)
Example C66_nonvacuous : answered (r_not_found_msg ++ r_ok) = 404%Z /\ answered (r_not_found ++ r_bad_request) = 400%Z.
Proof. split; reflexivity. Qed.

Print Assumptions C66_status_partial.
Print Assumptions C66_unavailable_refuted.
Print Assumptions C66_nonvacuous.
