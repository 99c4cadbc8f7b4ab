From Verif Require Import Str_Model Util_Model Str_Proofs Bind_Model Bind_Spec Bind_Proofs.
Local Open Scope Z_scope.
Local Open Scope list_scope.

(** Requests for the examples: path, query and headers as pairs. *)
Definition among (l : list (string * string)) (k : str) : list str :=
  map (fun p => s2l (snd p)) (filter (fun p => str_eqb (s2l (fst p)) k) l).
Definition q_of (u qu h : list (string * string)) : request := mk_request (among u) (among qu) (among h) None.
Definition no_json (s : str) : bool := false.

(** The structures whose unreadable values cannot slip through. *)
Definition guarded : list binder :=
  [put_req; get_req; big_put_req; meta_versions; obj_put; temp_post; temp_put; temp_get; admin_download].
(** All but the one with a body. *)
Definition by_form : list binder := [big_post_req; meta_get; obj_get] ++ guarded.

Lemma by_form_shaped : forall b, In b by_form -> exists fs us ss s, shaped b fs us ss s.
Proof.
  intros b I.
  assert (b_fields b = filter tagged (b_fields b) ++ filter (fun f => negb (tagged f)) (b_fields b) /\ shapedb b = true) as [F S].
  { repeat (destruct I as [<-|I]; [split; vm_compute; reflexivity|]). destruct I. }
  do 4 eexists. exact (shapedb_shaped b F S).
Qed.

Lemma guarded_guarded : forall b, In b guarded -> guardedb b = true.
Proof. intros b I. repeat (destruct I as [<-|I]; [vm_compute; reflexivity|]). destruct I. Qed.

(** ** C80 *)

(** Full statement: exactly the well-formed requests are accepted.
[forall b dec q, In b all_binders -> (snd (bind dec b q) = true <-> well_formed b q).]
    Missing: requests with stray keys; GET metadata, POST big, the data server's GET and
    the metadata server's UpdateLocates. *)
Theorem C80_exact_partial : forall b dec q, In b guarded -> clean b q ->
  (snd (bind dec b q) = true <-> well_formed b q).
Proof.
  intros b dec q I C. destruct (by_form_shaped b) as (fs & us & ss & s & Sh); [apply in_app_iff; now right|].
  split.
  - apply (accepted_well_formed dec b q fs us ss s Sh C). now apply guarded_guarded.
  - intros W. apply (well_formed_bound dec b q fs us ss s Sh C W).
Qed.
Print Assumptions C80_exact_partial.

(** Whatever is accepted obeys the rules in the tags, for every structure and request. *)
Theorem C80_rules : forall dec b q, b_srcs b <> [] -> snd (bind dec b q) = true ->
  forall i f v, nth_error (b_fields b) i = Some f -> nth_error (fst (bind dec b q)) i = Some v -> lawful (f_rule f) v.
Proof. exact rules_hold. Qed.
Print Assumptions C80_rules.

(** The fields of the interface, in the structures. *)
Fixpoint place (go : str) (fs : list field) : option (nat * field) :=
  match fs with
  | [] => None
  | f :: fs' => if str_eqb (f_go f) go then Some (O, f) else option_map (fun x : nat * field => (S (fst x), snd x)) (place go fs')
  end.

Lemma place_value : forall go fs i f o, place go fs = Some (i, f) -> List.length o = List.length fs ->
  nth_error fs i = Some f /\ value_of go fs o = nth_error o i /\ exists v, nth_error o i = Some v.
Proof.
  intros go fs. induction fs as [|g fs IH]; intros i f o P L; [discriminate|]. destruct o as [|v o]; [discriminate|]. cbn [place value_of] in *.
  destruct (str_eqb (f_go g) go); [injection P as <- <-; cbn; eauto|].
  destruct (place go fs) as [[j h]|] eqn:E; [|discriminate]. injection P as <- <-. cbn [fst snd nth_error].
  apply IH; [reflexivity|]. cbn in L. lia.
Qed.

Lemma documented_place : forall b ps go s key k r, In (b, ps) documented -> In (go, s, key, k, r) ps ->
  exists i f, place (s2l go) (b_fields b) = Some (i, f) /\ tag s f = Some (s2l key) /\ f_kind f = k /\ f_rule f = r /\ b_srcs b <> [].
Proof.
  intros b ps go s key k r I J. unfold documented in I.
  repeat (destruct I as [I|I]; [injection I as <- <-;
    repeat (destruct J as [J|J]; [injection J as <- <- <- <- <-; do 2 eexists; split; [vm_compute; reflexivity|];
      split; [vm_compute; reflexivity|]; split; [reflexivity|]; split; [reflexivity|discriminate]|]); destruct J|]).
  destruct I.
Qed.

(** Every parameter of the interface obeys what is asked of it when the request is
    accepted, for every request. *)
Theorem C80_interface : forall dec q b ps go s key k r, In (b, ps) documented -> In (go, s, key, k, r) ps ->
  snd (bind dec b q) = true -> exists v, bound dec b q go = Some v /\ lawful r v.
Proof.
  intros dec q b ps go s key k r I J A. destruct (documented_place b ps go s key k r I J) as (i & f & P & _ & _ & R & NE).
  destruct (place_value (s2l go) (b_fields b) i f (fst (bind dec b q)) P) as (Nf & V & v & Nv).
  { unfold bind. apply all_length. apply map_length. }
  exists v. split; [unfold bound; rewrite V; exact Nv|]. rewrite <- R. exact (C80_rules dec b q NE A i f v Nf Nv).
Qed.
Print Assumptions C80_interface.

(** GET with a header Range: refused when it does not convert, and the ranges are those it
    says; without one, no ranges.  PATCH needs one. *)
Theorem C80_range : forall dec q, let h := hd [] (q_header q (s2l "Range"%string)) in
  match get_bind dec q with
  | Some (vs, rg) => snd (bind dec get_req q) = true /\ vs = fst (bind dec get_req q) /\
                     (h = [] /\ rg = None \/ h <> [] /\ exists l, rg = Some l /\ range_convert h = Some l)
  | None => snd (bind dec get_req q) = false \/ h <> [] /\ range_convert h = None
  end.
Proof.
  intros dec q. cbv zeta. unfold get_bind. destruct (snd (bind dec get_req q)) eqn:E; [|left; reflexivity].
  destruct (hd [] (q_header q (s2l "Range"%string))) as [|c h] eqn:H; [auto|].
  destruct (range_convert (c :: h)) as [l|] eqn:R; [|right; split; [discriminate|reflexivity]].
  split; [reflexivity|]. split; [reflexivity|]. right. split; [discriminate|]. exists l. auto.
Qed.
Print Assumptions C80_range.

Theorem C80_patch_range : forall dec unescape q t l, big_put_bind dec unescape q = Some (t, l) ->
  range_convert (hd [] (q_header q (s2l "Range"%string))) = Some l /\
  exists t0, t0 <> [] /\ bound dec big_put_req q "Token" = Some (VText t0) /\ unescape t0 = Some t.
Proof.
  intros dec unescape q t l H. unfold big_put_bind in H.
  destruct (C80_interface dec q big_put_req [("Token", Uri, "token", KText, Required)]%string "Token" Uri "token" KText Required) as (v & B & L);
    [do 3 right; left; reflexivity|left; reflexivity| |].
  { destruct (bind dec big_put_req q) as [[|[] ?] []]; try discriminate H; reflexivity. }
  unfold bound in *. destruct (bind dec big_put_req q) as [[|[t0| | |] vs] []]; try discriminate H.
  cbn [fst] in *. change (value_of _ _ (VText t0 :: vs)) with (Some (VText t0)) in *. injection B as <-.
  destruct (unescape t0) as [t'|] eqn:U; [|discriminate]. destruct (range_convert _) as [l'|]; [|discriminate].
  injection H as <- <-. split; [reflexivity|]. exists t0. split; [inversion L; discriminate|]. auto.
Qed.
Print Assumptions C80_patch_range.

Example C80_range_case :
  option_map snd (get_bind no_json (q_of [("name", "a.png")] [] [("Bucket", "pics"); ("Range", "bytes=5-9")])%string) = Some (Some [(5, 9)]) /\
  get_bind no_json (q_of [("name", "a.png")] [] [("Bucket", "pics"); ("Range", "rows=5-9")])%string = None /\
  get_bind no_json (q_of [("name", "a.png")] [] [("Range", "bytes=5-9")])%string = None /\
  big_put_bind no_json Some (q_of [("token", "t")] [] [("Range", "bytes=5-9")])%string = Some (s2l "t"%string, [(5, 9)]) /\
  big_put_bind no_json Some (q_of [("token", "t")] [] [])%string = None.
Proof. vm_compute. auto 6. Qed.

(** No well-formed request is refused, and its values are those it gives. *)
(** Partial; the full statement is at [C80_exact_partial]. *)
Theorem C80_accepted_partial : forall b dec q, In b by_form -> clean b q -> well_formed b q ->
  snd (bind dec b q) = true /\
  forall i f v, nth_error (b_fields b) i = Some f -> declared f -> meant q f v -> nth_error (fst (bind dec b q)) i = Some v.
Proof.
  intros b dec q I C. destruct (by_form_shaped b I) as (fs & us & ss & s & Sh).
  exact (well_formed_bound dec b q fs us ss s Sh C).
Qed.
Print Assumptions C80_accepted_partial.

(** Reading an object with a version and a range: accepted, although the range does not
    decode; with an unreadable version: refused. *)
Definition q_read (v : string) : request :=
  q_of [("name", "a.png")]%string [("version", v)]%string [("Bucket", "pics"); ("Range", "bytes=5-")]%string.
Lemma q_read_clean : forall v, clean get_req (q_read v).
Proof.
  intros v s f S F T D.
  destruct S as [<-|[<-|[<-|[]]]]; destruct F as [<-|[<-|[<-|[<-|[]]]]]; try discriminate T;
    try (split; [reflexivity|]; intros inner k K; try discriminate K; injection K as <-; intros [<-|[]]; reflexivity);
    destruct D as [(s & t & D)|D]; try discriminate D; destruct s; discriminate D.
Qed.
Example C80_exact_case :
  clean get_req (q_read "3") /\ snd (bind no_json get_req (q_read "3")) = true /\
  get_bind no_json (q_read "3") =
    Some ([VText (s2l "a.png"%string); VText (s2l "pics"%string); VInt 3; VList []], Some [(5, 0)]) /\
  clean get_req (q_read "x") /\ snd (bind no_json get_req (q_read "x")) = false.
Proof.
  split; [apply q_read_clean|]. split; [vm_compute; reflexivity|]. split; [vm_compute; reflexivity|].
  split; [apply q_read_clean|]. vm_compute. reflexivity.
Qed.

(** GET metadata with an unreadable version: taken for version 0, the last one. *)
Theorem C80_version_refuted : forall dec q n c bk r x xr,
  q_uri q (s2l "name"%string) = [n] -> q_uri q (s2l "Bucket"%string) = [] -> q_uri q (s2l "Version"%string) = [] ->
  q_query q (s2l "Name"%string) = [] -> q_query q (s2l "Bucket"%string) = [] -> q_query q (s2l "version"%string) = x :: xr ->
  q_header q (s2l "Name"%string) = [] -> q_header q (s2l "Bucket"%string) = (c :: bk) :: r -> q_header q (s2l "Version"%string) = [] ->
  x <> [] -> parse_int 32 x = None ->
  bind dec meta_get q = ([VText n; VText (c :: bk); VInt 0], true).
Proof.
  intros dec q n c bk r x xr U1 U2 U3 Q1 Q2 Q3 H1 H2 H3 NE P.
  unfold bind, bind_all, meta_get. cbn [b_fields b_srcs map fold_left fst].
  set (f1 := f_in Uri "Name" "name" KText Any). set (f2 := f_in Header "Bucket" "bucket" KText Required).
  set (f3 := f_in Query "Version" "version" (KInt 32) Any).
  assert (find dec q Uri f1 = Good (VText n)) as A1 by (unfold find; change (look q Uri (key_of Uri f1)) with (q_uri q (s2l "name"%string)); rewrite U1; reflexivity).
  assert (find dec q Uri f2 = Absent) as A2 by (unfold find; change (look q Uri (key_of Uri f2)) with (q_uri q (s2l "Bucket"%string)); rewrite U2; reflexivity).
  assert (find dec q Uri f3 = Absent) as A3 by (unfold find; change (look q Uri (key_of Uri f3)) with (q_uri q (s2l "Version"%string)); rewrite U3; reflexivity).
  assert (find dec q Query f1 = Absent) as B1 by (unfold find; change (look q Query (key_of Query f1)) with (q_query q (s2l "Name"%string)); rewrite Q1; reflexivity).
  assert (find dec q Query f2 = Absent) as B2 by (unfold find; change (look q Query (key_of Query f2)) with (q_query q (s2l "Bucket"%string)); rewrite Q2; reflexivity).
  assert (find dec q Query f3 = Bad) as B3.
  { unfold find. change (look q Query (key_of Query f3)) with (q_query q (s2l "version"%string)). rewrite Q3.
    change (f_kind f3) with (KInt 32). unfold convert. cbn [hd]. rewrite P. destruct x; [congruence|reflexivity]. }
  assert (find dec q Header f1 = Absent) as C1 by (unfold find; change (look q Header (key_of Header f1)) with (q_header q (s2l "Name"%string)); rewrite H1; reflexivity).
  assert (find dec q Header f2 = Good (VText (c :: bk))) as C2 by (unfold find; change (look q Header (key_of Header f2)) with (q_header q (s2l "Bucket"%string)); rewrite H2; reflexivity).
  assert (find dec q Header f3 = Absent) as C3 by (unfold find; change (look q Header (key_of Header f3)) with (q_header q (s2l "Version"%string)); rewrite H3; reflexivity).
  unfold pass. cbn [set_fields fst snd].
  rewrite A1, A2, A3, B1, B2, B3, C1, C2, C3. cbn [set_fields fst snd]. reflexivity.
Qed.
Print Assumptions C80_version_refuted.

Example C80_version_case :
  bind no_json meta_get (q_of [("name", "a.png")] [("version", "2x")] [("Bucket", "pics")])%string
  = ([VText (s2l "a.png"%string); VText (s2l "pics"%string); VInt 0], true) /\
  parse_int 32 (s2l "2x"%string) = None /\ parse_int 32 (s2l "4294967298"%string) = None.
Proof. vm_compute. auto. Qed.

(** POST big and the data server's GET with an unreadable "compress": taken for false;
    so a client that asks for compression in other words than Go's is not told. *)
Theorem C80_compress_refuted : exists q1 q2,
  ~ well_formed big_post_req q1 /\ snd (bind no_json big_post_req q1) = true /\ bound no_json big_post_req q1 "Compress" = Some (VBool false) /\
  ~ well_formed obj_get q2 /\ snd (bind no_json obj_get q2) = true /\ bound no_json obj_get q2 "Compress" = Some (VBool false).
Proof.
  exists (q_of [("name", "a.png")] [("compress", "yes")] [("Bucket", "pics"); ("Digest", "d"); ("Size", "7")])%string,
         (q_of [("name", "h.0")] [("compress", "yes")] [("Size", "7")])%string.
  assert (forall v, ~ written KBool (s2l "yes"%string) v) as NW.
  { intros v W. inversion W as [| | | |s I|s I]; subst;
      repeat (match goal with H : In _ _ |- _ => destruct H as [H|H]; [vm_compute in H; discriminate H|] end);
      match goal with H : In _ _ |- _ => destruct H end. }
  repeat split; try (vm_compute; reflexivity).
  - intros W. destruct (W (f_in Query "Compress" "compress" KBool Any)) as (v & M & _); [now left|now exists Query, (s2l "compress"%string)|].
    inversion M as [s t T L|s t x r v' T L WR]; subst; destruct s; try discriminate T; injection T as <-; vm_compute in L; [discriminate L|].
    injection L as <- _. exact (NW _ WR).
  - intros W. destruct (W (f_in Query "Compress" "compress" KBool Any)) as (v & M & _); [right; right; right; now left|now exists Query, (s2l "compress"%string)|].
    inversion M as [s t T L|s t x r v' T L WR]; subst; destruct s; try discriminate T; injection T as <-; vm_compute in L; [discriminate L|].
    injection L as <- _. exact (NW _ WR).
Qed.
Print Assumptions C80_compress_refuted.

(** UpdateLocates with an index that is no number, or out of range: index 0 is changed. *)
Theorem C80_index_refuted : exists j, j (s2l "locateIndex"%string) = Some (JText (s2l "3"%string)) /\
  bind no_json update_locates (mk_request (fun _ => []) (fun _ => []) (fun _ => []) (Some j)) =
    ([VText (s2l "10.0.0.7:8090"%string); VText (s2l "d"%string); VInt 0], true).
Proof.
  exists (fun k => if str_eqb k (s2l "locate"%string) then Some (JText (s2l "10.0.0.7:8090"%string))
                   else if str_eqb k (s2l "hash"%string) then Some (JText (s2l "d"%string))
                   else if str_eqb k (s2l "locateIndex"%string) then Some (JText (s2l "3"%string)) else None).
  vm_compute. auto.
Qed.
Print Assumptions C80_index_refuted.

(** A body that does not parse is refused all the same, through the required fields (the
    route has no path parameters). *)
(** Partial; the full statement is at [C80_exact_partial]. *)
Theorem C80_body_partial : forall dec h,
  snd (bind dec update_locates (mk_request (fun _ => []) (fun _ => []) h None)) = false.
Proof. reflexivity. Qed.
Print Assumptions C80_body_partial.

(** ** C81 *)

(** Full statement: whatever else a request carries, an accepted request's values are
    those at the places the tags name.
[forall b dec q, In b by_form -> snd (bind dec b q) = true ->
   forall i f v, nth_error (b_fields b) i = Some f -> declared f -> meant q f v ->
   nth_error (fst (bind dec b q)) i = Some v.]
    Missing: requests with stray keys; unreadable values in the structures of C80's
    counterexamples. *)
Theorem C81_places_partial : forall b dec q, In b guarded -> clean b q -> snd (bind dec b q) = true ->
  forall i f v, nth_error (b_fields b) i = Some f -> declared f -> meant q f v -> nth_error (fst (bind dec b q)) i = Some v.
Proof.
  intros b dec q I C A. apply C80_accepted_partial; [apply in_app_iff; now right|exact C|].
  now apply (C80_exact_partial b dec q I C).
Qed.
Print Assumptions C81_places_partial.

(** For the interface: each parameter is what stands at its place. *)
(** Partial; the full statement is at [C81_places_partial]. *)
Theorem C81_interface_partial : forall dec q b ps go s key k r v, In (b, ps) documented -> In (go, s, key, k, r) ps ->
  In b guarded -> clean b q -> snd (bind dec b q) = true -> stands q s key k v -> bound dec b q go = Some v.
Proof.
  intros dec q b ps go s key k r v I J G C A S. destruct (documented_place b ps go s key k r I J) as (i & f & P & T & K & _ & _).
  destruct (place_value (s2l go) (b_fields b) i f (fst (bind dec b q)) P) as (Nf & V & _ & _).
  { unfold bind. apply all_length. apply map_length. }
  unfold bound. rewrite V. apply (C81_places_partial b dec q G C A i f v Nf); [exists s, (s2l key); exact T|].
  destruct S as [[L ->]|(x & rr & L & W)]; [rewrite <- K; exact (M_absent q f s (s2l key) T L)|].
  apply (M_given q f s (s2l key) x rr v T L). rewrite K. exact W.
Qed.
Print Assumptions C81_interface_partial.

Example C81_interface_case : In (get_req, snd (nth 1 documented (get_req, []))) documented /\
  In ("Version", Query, "version", KInt 32, Min 0)%string (snd (nth 1 documented (get_req, []))) /\
  stands (q_read "3") Query "version" (KInt 32) (VInt 3) /\ bound no_json get_req (q_read "3") "Version" = Some (VInt 3).
Proof.
  split; [right; left; reflexivity|]. split; [right; right; left; reflexivity|]. split; [|vm_compute; reflexivity].
  right. exists (s2l "3"%string), []. split; [vm_compute; reflexivity|]. apply W_int; [vm_compute; reflexivity|cbn; lia].
Qed.

(** What the request gives to a field is one value at most. *)
Theorem C81_one : forall b q f v w, In b by_form -> clean b q -> well_formed b q -> In f (b_fields b) -> declared f ->
  meant q f v -> meant q f w -> v = w.
Proof.
  intros b q f v w I C W F D M N. destruct (C80_accepted_partial b no_json q I C W) as [_ H].
  apply In_nth_error in F as [i F]. pose proof (H i f v F D M). pose proof (H i f w F D N). congruence.
Qed.
Print Assumptions C81_one.

Example C81_places_case :
  In get_req guarded /\ snd (bind no_json get_req (q_read "3")) = true /\
  meant (q_read "3") (f_in Query "Version" "version" (KInt 32) (Min 0)) (VInt 3) /\
  bound no_json get_req (q_read "3") "Version" = Some (VInt 3).
Proof.
  split; [right; now left|]. split; [vm_compute; reflexivity|]. split; [|vm_compute; reflexivity].
  apply (M_given _ _ Query (s2l "version"%string) (s2l "3"%string) []); [reflexivity|vm_compute; reflexivity|].
  apply W_int; [vm_compute; reflexivity|cbn; lia].
Qed.
