From Coq Require Import Ascii String List Bool Arith Lia.
From Verif Require Import ListX Str_Model Str_Proofs Path_Model Url_Model Url_Proofs Web_Model Web_Spec.
Import ListNotations.
Local Open Scope list_scope.

Lemma without_in : forall s t c, without s t -> In c (s2l s) -> ~ In c t.
Proof. intros s t c W I H. exact (W c H I). Qed.
Lemma before_none : forall c s, ~ In c s -> before c s = s.
Proof. intros c s N. unfold before. rewrite (cut_on_none c s N). reflexivity. Qed.
Lemma before_app : forall c a b, ~ In c a -> before c (a ++ c :: b) = a.
Proof. intros c a b N. unfold before. rewrite (cut_on_app c a b N). reflexivity. Qed.
Lemma after_none : forall c s, ~ In c s -> after c s = [].
Proof. intros c s N. unfold after. rewrite (cut_on_none c s N). reflexivity. Qed.
Lemma after_app : forall c a b, ~ In c a -> after c (a ++ c :: b) = b.
Proof. intros c a b N. unfold after. rewrite (cut_on_app c a b N). reflexivity. Qed.

Lemma plus_own : forall s, ~ In "+"%char s -> plus_to_space s = s.
Proof.
  induction s as [|c s IH]; intros N; [reflexivity|]. cbn. destruct (Ascii.eqb_spec c "+"%char) as [->|Q]; [contradiction N; left; reflexivity|].
  f_equal. apply IH. intros I. apply N. right. exact I.
Qed.
Lemma plus_app : forall a b, plus_to_space (a ++ b) = plus_to_space a ++ plus_to_space b.
Proof. intros a b. apply map_app. Qed.
Lemma decode_own : forall s, ~ In "%"%char s -> decode s = s.
Proof. intros s N. unfold decode. rewrite (unescape_own EPath s N); [reflexivity|discriminate]. Qed.
Lemma decode_slash : forall s, exists t, decode ("/"%char :: s) = "/"%char :: t.
Proof. intros s. unfold decode. cbn. destruct (unescape EPath s) as [t|]; eexists; reflexivity. Qed.

(** ** Files *)

Lemma slice_bytes : forall d a b, bytes_of d a b (slice a b d).
Proof.
  intros d a b k. unfold slice. destruct (a + k <=? b) eqn:E.
  - apply Nat.leb_le in E. rewrite nth_error_firstn by lia. apply nth_error_skipn.
  - apply Nat.leb_gt in E. apply nth_error_None. rewrite firstn_length. lia.
Qed.
Lemma slice_min : forall d a b, bytes_of d a b (slice a (Nat.min b (List.length d - 1)) d).
Proof.
  intros d a b k. rewrite (slice_bytes d a (Nat.min b (List.length d - 1)) k).
  destruct (a + k <=? b) eqn:E.
  - apply Nat.leb_le in E. destruct (a + k <=? Nat.min b (List.length d - 1)) eqn:F; [reflexivity|]. apply Nat.leb_gt in F.
    symmetry. apply nth_error_None. lia.
  - apply Nat.leb_gt in E. destruct (a + k <=? Nat.min b (List.length d - 1)) eqn:F; [|reflexivity]. apply Nat.leb_le in F. lia.
Qed.

(** ** Routes *)

Lemma split_head : forall c s w ws, split_on c s = w :: ws -> exists t, s = w ++ t.
Proof.
  intros c. induction s as [|x s IH]; intros w ws H; cbn in H.
  - injection H as <- _. exists []. reflexivity.
  - destruct (ascii_dec x c); [injection H as <- _; eexists; reflexivity|].
    destruct (split_on c s) as [|v vs]; [injection H as <- _; eexists; reflexivity|]. injection H as <- _.
    destruct (IH v vs eq_refl) as (t & ->). exists t. reflexivity.
Qed.
Lemma begins_app : forall p s, begins p (p ++ s) = true.
Proof. intros p s. unfold begins. rewrite strip_app. reflexivity. Qed.

Lemma lookup_in : forall rs m path p xs, lookup rs m path = Some (p, xs) -> In (m, p) rs /\ fits p (segments path) = Some xs.
Proof.
  induction rs as [|[m' p'] rs IH]; intros m path p xs H; [discriminate|]. cbn in H.
  destruct (str_eqb m m') eqn:E.
  - apply str_eqb_eq in E as <-. destruct (fits p' (segments path)) as [ys|] eqn:F.
    + injection H as -> ->. split; [left; reflexivity|exact F].
    + destruct (IH _ _ _ _ H) as [I K]. split; [right; exact I|exact K].
  - destruct (IH _ _ _ _ H) as [I K]. split; [right; exact I|exact K].
Qed.
Lemma routes_api : forall m p, In (m, p) routes -> exists q, p = lit "api" :: q.
Proof.
  intros m p H. unfold routes in H. apply in_map_iff in H as ([m' p'] & E & H). cbn in E. injection E as _ ->.
  repeat (destruct H as [H|H]; [injection H as _ <-; eexists; reflexivity|]). destruct H.
Qed.
Lemma lookup_api : forall m path p xs, lookup routes m path = Some (p, xs) -> begins (s2l "/api"%string) path = true.
Proof.
  intros m path p xs H. apply lookup_in in H as [I F]. destruct (routes_api m p I) as (q & ->). cbn [fits lit] in F.
  destruct (segments path) as [|s r] eqn:S0; [discriminate|]. destruct (str_eqb (s2l "api"%string) s) eqn:E; [|discriminate].
  apply str_eqb_eq in E as <-. unfold segments in S0. destruct path as [|c path]; [discriminate|].
  destruct (ascii_dec c "/"%char) as [->|N].
  - apply split_head in S0 as (t & ->). exact (begins_app (s2l "/api"%string) t).
  - exfalso. destruct c as [[] [] [] [] [] [] [] []]; try discriminate S0. apply N. reflexivity.
Qed.
Lemma exists_api : forall fs path, begins (s2l "/api"%string) path = true -> exists_file fs path = false.
Proof. intros fs path B. unfold exists_file. rewrite B. reflexivity. Qed.

(** ** The page *)

Lemma params_piece : forall a rq, ~ In "&"%char a -> a <> [] -> params (a ++ "&"%char :: rq) = param_of a :: params rq.
Proof.
  intros a rq N NE. unfold params. rewrite (split_on_app "&"%char a rq N). cbn [filter].
  destruct (str_eqb a []) eqn:E; [apply str_eqb_eq in E; contradiction|]. reflexivity.
Qed.
Lemma params_one : forall a, ~ In "&"%char a -> a <> [] -> params a = [param_of a].
Proof.
  intros a N NE. unfold params. rewrite (split_on_notin "&"%char a N). cbn [filter].
  destruct (str_eqb a []) eqn:E; [apply str_eqb_eq in E; contradiction|]. reflexivity.
Qed.
Lemma param_redirect : forall a, param_of (s2l "redirect="%string ++ a) = (s2l "redirect"%string, Some (decode (plus_to_space a))).
Proof.
  intros a. unfold param_of. rewrite plus_app.
  change (plus_to_space (s2l "redirect="%string) ++ plus_to_space a) with (s2l "redirect"%string ++ "="%char :: plus_to_space a).
  rewrite (cut_on_app "="%char (s2l "redirect"%string)); [reflexivity|]. cbn. intuition discriminate.
Qed.
Lemma redirect_no : forall c, ~ In c (s2l "redirect="%string) -> forall a, ~ In c a -> ~ In c (s2l "redirect="%string ++ a).
Proof. intros c N a M I. apply in_app_or in I as [I|I]; contradiction. Qed.

Lemma location_query : forall t, ~ In "#"%char t ->
  after "?"%char (before "#"%char (s2l "/?redirect="%string ++ t)) = s2l "redirect="%string ++ t.
Proof.
  intros t N. rewrite before_none.
  - change (s2l "/?redirect="%string ++ t) with ([("/"%char)] ++ "?"%char :: (s2l "redirect="%string ++ t)).
    apply after_app. cbn. intuition discriminate.
  - intros I. apply in_app_or in I as [I|I]; [|contradiction]. cbn in I. intuition discriminate.
Qed.

Lemma keys_kept : forall (l : list (str * option str)), Forall (fun e => fst e <> s2l "redirect"%string) l ->
  filter (fun e : str * option str => str_eqb (fst e) (s2l "redirect"%string)) l = [] /\
  filter (fun e : str * option str => negb (str_eqb (fst e) (s2l "redirect"%string))) l = l.
Proof.
  induction l as [|e l IH]; intros F; [split; reflexivity|]. inversion F; subst. destruct (IH H2) as [A B]. cbn [filter].
  destruct (str_eqb (fst e) (s2l "redirect"%string)) eqn:E; [apply str_eqb_eq in E; contradiction|]. cbn [negb]. split; [exact A|]. f_equal. exact B.
Qed.

Lemma index_exact : forall p rq, ~ In "&"%char p -> ~ In "#"%char p -> ~ In "#"%char rq ->
  Forall (fun e => fst e <> s2l "redirect"%string) (params rq) ->
  index_goes (s2l "/?redirect="%string ++ ("/"%char :: p) ++ "&"%char :: rq) = Some (decode (plus_to_space ("/"%char :: p)), params rq).
Proof.
  intros p rq A H Hq F. unfold index_goes. rewrite location_query.
  2:{ intros I. apply in_app_or in I as [[I|I]|[I|I]]; try discriminate; contradiction. }
  rewrite app_assoc, params_piece.
  2:{ apply redirect_no; [cbn; intuition discriminate|]. intros [I|I]; [discriminate|contradiction]. }
  2:{ discriminate. }
  rewrite param_redirect. destruct (keys_kept _ F) as [K1 K2]. cbn [filter fst].
  replace (str_eqb (s2l "redirect"%string) (s2l "redirect"%string)) with true by (symmetry; apply str_eqb_refl).
  cbn [negb]. rewrite K1, K2. change (plus_to_space ("/"%char :: p)) with ("/"%char :: plus_to_space p).
  destruct (decode_slash (plus_to_space p)) as (t & ->). reflexivity.
Qed.

Lemma index_amp : forall a b rq x ps, ~ In "&"%char a -> ~ In "#"%char (a ++ b) -> ~ In "#"%char rq -> ~ In "%"%char a -> ~ In "+"%char a ->
  index_goes (s2l "/?redirect="%string ++ (a ++ "&"%char :: b) ++ "&"%char :: rq) = Some (x, ps) -> x = a.
Proof.
  intros a b rq x ps A H Hq P Q. unfold index_goes. rewrite location_query.
  2:{ intros I. rewrite <- app_assoc in I. apply in_app_or in I as [I|[I|I]]; [apply H, in_or_app; left; exact I|discriminate|].
      apply in_app_or in I as [I|[I|I]]; [apply H, in_or_app; right; exact I|discriminate|contradiction]. }
  rewrite <- app_assoc. cbn [app]. rewrite app_assoc, params_piece.
  2:{ apply redirect_no; [cbn; intuition discriminate|exact A]. }
  2:{ discriminate. }
  rewrite param_redirect, (plus_own a Q), (decode_own a P). cbn [filter fst].
  replace (str_eqb (s2l "redirect"%string) (s2l "redirect"%string)) with true by (symmetry; apply str_eqb_refl).
  match goal with |- context [filter ?f ?l] => destruct (filter f l) end; destruct a as [|c a]; try discriminate. intros E. injection E as <- _. reflexivity.
Qed.

Lemma index_hash : forall p b rq, ~ In "&"%char p -> ~ In "#"%char p -> ~ In "%"%char p -> ~ In "+"%char p ->
  index_goes (s2l "/?redirect="%string ++ (("/"%char :: p) ++ "#"%char :: b) ++ "&"%char :: rq) = Some ("/"%char :: p, []).
Proof.
  intros p b rq A H P Q. unfold index_goes.
  replace (s2l "/?redirect="%string ++ (("/"%char :: p) ++ "#"%char :: b) ++ "&"%char :: rq)
     with ((s2l "/?redirect="%string ++ "/"%char :: p) ++ "#"%char :: (b ++ "&"%char :: rq)) by (rewrite <- !app_assoc; reflexivity).
  rewrite before_app.
  2:{ intros I. apply in_app_or in I as [I|[I|I]]; [cbn in I; intuition discriminate|discriminate|contradiction]. }
  change (s2l "/?redirect="%string ++ "/"%char :: p) with ([("/"%char)] ++ "?"%char :: (s2l "redirect="%string ++ "/"%char :: p)).
  rewrite after_app by (cbn; intuition discriminate). rewrite params_one.
  2:{ apply redirect_no; [cbn; intuition discriminate|]. intros [I|I]; [discriminate|contradiction]. }
  2:{ discriminate. }
  rewrite param_redirect, plus_own by (intros [I|I]; [discriminate|contradiction]).
  rewrite decode_own by (intros [I|I]; [discriminate|contradiction]).
  cbn [filter fst]. replace (str_eqb (s2l "redirect"%string) (s2l "redirect"%string)) with true by (symmetry; apply str_eqb_refl). reflexivity.
Qed.

(** ** Calls *)

Lemma asked_plain : forall t, ~ In "#"%char t -> ~ In "?"%char t -> ~ In "%"%char t -> asked t = Some (t, []).
Proof.
  intros t H Q P. unfold asked. rewrite (before_none _ _ H), (before_none _ _ Q), (after_none _ _ Q), (unescape_own EPath t P); [reflexivity|discriminate].
Qed.
Lemma asked_query : forall t q, ~ In "#"%char t -> ~ In "#"%char q -> ~ In "?"%char t -> ~ In "%"%char t -> asked (t ++ "?"%char :: q) = Some (t, q).
Proof.
  intros t q H Hq Q P. unfold asked. rewrite (before_none "#"%char).
  - rewrite (before_app _ _ _ Q), (after_app _ _ _ Q), (unescape_own EPath t P); [reflexivity|discriminate].
  - intros I. apply in_app_or in I as [I|[I|I]]; [contradiction|discriminate|contradiction].
Qed.
Lemma asked_hash : forall t f, ~ In "#"%char t -> asked (t ++ "#"%char :: f) = asked t.
Proof. intros t f H. unfold asked. rewrite (before_app _ _ _ H), (before_none _ _ H). reflexivity. Qed.

Definition del_path : str := s2l "/api/metadata/delete_bucket/"%string.
Definition get_path : str := s2l "/api/objects/download/"%string.
Definition del_pattern : pattern := api "metadata" [lit "delete_bucket"; None].
Definition get_pattern : pattern := api "objects" [lit "download"; None].

Lemma seg4 : forall a b c n, ~ In "/"%char a -> ~ In "/"%char b -> ~ In "/"%char c -> ~ In "/"%char n ->
  segments ("/"%char :: a ++ "/"%char :: b ++ "/"%char :: c ++ "/"%char :: n) = [a; b; c; n].
Proof.
  intros a b c n A B C N. cbn [segments]. rewrite (split_on_app _ _ _ A), (split_on_app _ _ _ B), (split_on_app _ _ _ C), (split_on_notin _ _ N). reflexivity.
Qed.

Fixpoint lookup_segs (rs : list (str * pattern)) (m : str) (segs : list str) : option (pattern * list str) :=
  match rs with
  | [] => None
  | (m', p) :: r =>
      if str_eqb m m' then match fits p segs with Some xs => Some (p, xs) | None => lookup_segs r m segs end
      else lookup_segs r m segs
  end.
Lemma lookup_by : forall rs m path, lookup rs m path = lookup_segs rs m (segments path).
Proof. induction rs as [|[m' p] rs IH]; intros m path; [reflexivity|]. cbn. rewrite IH. reflexivity. Qed.

Ltac noslash := cbn; intuition discriminate.

Lemma answer_del : forall fs port n q, n <> [] -> ~ In "/"%char n ->
  answers fs port (s2l "DELETE"%string) (del_path ++ n) q None = Handled del_pattern [n].
Proof.
  intros fs port n q NE NS. unfold answers. rewrite exists_api by exact (begins_app (s2l "/api"%string) _). rewrite lookup_by.
  change (del_path ++ n) with ("/"%char :: s2l "api"%string ++ "/"%char :: s2l "metadata"%string ++ "/"%char :: s2l "delete_bucket"%string ++ "/"%char :: n).
  rewrite seg4; [|noslash|noslash|noslash|exact NS]. destruct n as [|c n]; [contradiction|]. vm_compute. reflexivity.
Qed.
Lemma answer_get : forall fs port n q, n <> [] -> ~ In "/"%char n ->
  answers fs port (s2l "GET"%string) (get_path ++ n) q None = Handled get_pattern [n].
Proof.
  intros fs port n q NE NS. unfold answers. rewrite exists_api by exact (begins_app (s2l "/api"%string) _). rewrite lookup_by.
  change (get_path ++ n) with ("/"%char :: s2l "api"%string ++ "/"%char :: s2l "objects"%string ++ "/"%char :: s2l "download"%string ++ "/"%char :: n).
  rewrite seg4; [|noslash|noslash|noslash|exact NS]. destruct n as [|c n]; [contradiction|]. vm_compute. reflexivity.
Qed.
Lemma answer_join : forall fs port n q, n <> [] -> ~ In "/"%char n ->
  answers fs port (s2l "POST"%string) (s2l "/api/objects/join/"%string ++ n) q None = Handled (api "objects" [lit "join"; None]) [n].
Proof.
  intros fs port n q NE NS. unfold answers. rewrite exists_api by exact (begins_app (s2l "/api"%string) _). rewrite lookup_by.
  change (s2l "/api/objects/join/"%string ++ n) with ("/"%char :: s2l "api"%string ++ "/"%char :: s2l "objects"%string ++ "/"%char :: s2l "join"%string ++ "/"%char :: n).
  rewrite seg4; [|noslash|noslash|noslash|exact NS]. destruct n as [|c n]; [contradiction|]. vm_compute. reflexivity.
Qed.
Lemma answer_leave : forall fs port n q, n <> [] -> ~ In "/"%char n ->
  answers fs port (s2l "POST"%string) (s2l "/api/objects/leave/"%string ++ n) q None = Handled (api "objects" [lit "leave"; None]) [n].
Proof.
  intros fs port n q NE NS. unfold answers. rewrite exists_api by exact (begins_app (s2l "/api"%string) _). rewrite lookup_by.
  change (s2l "/api/objects/leave/"%string ++ n) with ("/"%char :: s2l "api"%string ++ "/"%char :: s2l "objects"%string ++ "/"%char :: s2l "leave"%string ++ "/"%char :: n).
  rewrite seg4; [|noslash|noslash|noslash|exact NS]. destruct n as [|c n]; [contradiction|]. vm_compute. reflexivity.
Qed.

Lemma prefix_no : forall c s n, ~ In c (s2l s) -> ~ In c n -> ~ In c (s2l s ++ n).
Proof. intros c s n A B I. apply in_app_or in I as [I|I]; contradiction. Qed.

Lemma path_name_no : forall n, path_name n -> n <> [] /\ ~ In "/"%char n /\ ~ In "#"%char n /\ ~ In "?"%char n /\ ~ In "%"%char n.
Proof.
  intros n (NE & W & _). split; [exact NE|]. repeat split; apply (without_in _ _ _ W); cbn; tauto.
Qed.

(** ** Values of a query *)
Lemma semicolon : forall p, ~ In ";"%char p -> existsb (Ascii.eqb ";"%char) p = false.
Proof.
  intros p N. destruct (existsb (Ascii.eqb ";"%char) p) eqn:E; [|reflexivity]. exfalso. apply existsb_exists in E as (x & I & X).
  apply Ascii.eqb_eq in X as <-. contradiction.
Qed.
Lemma value_two : forall v b, query_text v -> query_text b ->
  value (s2l "version="%string ++ v ++ s2l "&bucket="%string ++ b) (s2l "version"%string) = Some v /\
  value (s2l "version="%string ++ v ++ s2l "&bucket="%string ++ b) (s2l "bucket"%string) = Some b.
Proof.
  intros v b [Wv _] [Wb _].
  assert (forall t c, without "&;+#%" t -> In c (s2l "&;+#%"%string) -> ~ In c t) as K by (intros t c W I; exact (without_in _ _ _ W I)).
  assert (split_on "&"%char (s2l "version="%string ++ v ++ s2l "&bucket="%string ++ b) = [s2l "version="%string ++ v; s2l "bucket="%string ++ b]) as S0.
  { change (s2l "&bucket="%string ++ b) with ("&"%char :: (s2l "bucket="%string ++ b)). rewrite app_assoc.
    rewrite split_on_app by (apply prefix_no; [noslash|apply (K v); [exact Wv|cbn; tauto]]).
    rewrite split_on_notin by (apply prefix_no; [noslash|apply (K b); [exact Wb|cbn; tauto]]). reflexivity. }
  assert (forall s t, ~ In "="%char (s2l s) -> cut_on "="%char (s2l s ++ "="%char :: t) = Some (s2l s, t)) as C by (intros s t N; apply cut_on_app, N).
  unfold value. rewrite S0. unfold query_get.
  rewrite !semicolon by (apply prefix_no; [noslash|first [apply (K v); [exact Wv|cbn; tauto]|apply (K b); [exact Wb|cbn; tauto]]]).
  change (s2l "version="%string ++ v) with (s2l "version"%string ++ "="%char :: v).
  change (s2l "bucket="%string ++ b) with (s2l "bucket"%string ++ "="%char :: b).
  rewrite !C by noslash.
  rewrite (unescape_own EQuery v) by (first [apply (K v); [exact Wv|cbn; tauto]|intros _; apply (K v); [exact Wv|cbn; tauto]]).
  rewrite (unescape_own EQuery b) by (first [apply (K b); [exact Wb|cbn; tauto]|intros _; apply (K b); [exact Wb|cbn; tauto]]).
  split; reflexivity.
Qed.
Lemma value_amp : forall v a b, query_text v -> query_text a ->
  value (s2l "version="%string ++ v ++ s2l "&bucket="%string ++ a ++ "&"%char :: b) (s2l "bucket"%string) = Some a.
Proof.
  intros v b b' [Wv _] [Wb _].
  assert (forall t c, without "&;+#%" t -> In c (s2l "&;+#%"%string) -> ~ In c t) as K by (intros t c W I; exact (without_in _ _ _ W I)).
  assert (split_on "&"%char (s2l "version="%string ++ v ++ s2l "&bucket="%string ++ b ++ "&"%char :: b') = (s2l "version="%string ++ v) :: (s2l "bucket="%string ++ b) :: split_on "&"%char b') as S0.
  { change (s2l "&bucket="%string ++ b ++ "&"%char :: b') with ("&"%char :: (s2l "bucket="%string ++ b ++ "&"%char :: b')). rewrite app_assoc.
    rewrite split_on_app by (apply prefix_no; [noslash|apply (K v); [exact Wv|cbn; tauto]]).
    rewrite app_assoc, split_on_app by (apply prefix_no; [noslash|apply (K b); [exact Wb|cbn; tauto]]). reflexivity. }
  assert (forall s t, ~ In "="%char (s2l s) -> cut_on "="%char (s2l s ++ "="%char :: t) = Some (s2l s, t)) as C by (intros s t N; apply cut_on_app, N).
  unfold value. rewrite S0. cbn [query_get].
  rewrite !semicolon by (apply prefix_no; [noslash|first [apply (K v); [exact Wv|cbn; tauto]|apply (K b); [exact Wb|cbn; tauto]]]).
  change (s2l "version="%string ++ v) with (s2l "version"%string ++ "="%char :: v).
  change (s2l "bucket="%string ++ b) with (s2l "bucket"%string ++ "="%char :: b).
  rewrite !C by noslash.
  rewrite (unescape_own EQuery v) by (first [apply (K v); [exact Wv|cbn; tauto]|intros _; apply (K v); [exact Wv|cbn; tauto]]).
  rewrite (unescape_own EQuery b) by (first [apply (K b); [exact Wb|cbn; tauto]|intros _; apply (K b); [exact Wb|cbn; tauto]]).
  reflexivity.
Qed.
