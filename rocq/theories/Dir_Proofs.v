From Coq Require Import List Bool Arith NArith ZArith Ascii Lia.
From Verif Require Import Str_Model Str_Proofs Path_Model Path_Proofs Panic_Model Dir_Model Dir_Spec.
Import ListNotations.
Local Open Scope list_scope.
Local Notation length := List.length.

(** ** Splitting *)

Lemma split_mid : forall c (a b : str), split_on c (a ++ c :: b) = split_on c a ++ split_on c b.
Proof.
  intros c a b. induction a as [|x a IH]; cbn [app split_on].
  - destruct (ascii_dec c c); [reflexivity|congruence].
  - destruct (ascii_dec x c); [rewrite IH; reflexivity|]. rewrite IH.
    destruct (split_on c a) as [|w ws] eqn:E; [destruct (split_on_nonempty c a E)|reflexivity].
Qed.

Lemma split_slashes : forall l, l <> [] -> split_on "/"%char (slashes l) = flat_map (split_on "/"%char) l.
Proof.
  induction l as [|x l IH]; [congruence|]. intros _. destruct l as [|y l]; [cbn [slashes flat_map]; rewrite app_nil_r; reflexivity|].
  change (slashes (x :: y :: l)) with (x ++ "/"%char :: slashes (y :: l)). rewrite split_mid, IH by discriminate. reflexivity.
Qed.

Lemma split_noslash : forall (s x : str), In x (split_on "/"%char s) -> ~ In "/"%char x.
Proof.
  induction s as [|c s IH]; cbn [split_on]; intros x I.
  - destruct I as [<-|[]]. intros [].
  - destruct (ascii_dec c "/"%char) as [->|N].
    + destruct I as [<-|I]; [intros []|exact (IH x I)].
    + destruct (split_on "/"%char s) as [|w ws] eqn:E.
      * destruct I as [<-|[]]. intros [K|[]]. congruence.
      * destruct I as [<-|I]; [|apply IH; right; exact I]. intros [K|K]; [congruence|]. exact (IH w (or_introl eq_refl) K).
Qed.

Lemma split_parts : forall l, l <> [] -> Forall (fun x => ~ In "/"%char x) l -> split_on "/"%char (slashes l) = l.
Proof.
  intros l N F. rewrite split_slashes by exact N. clear N. induction F as [|x l H _ IH]; [reflexivity|].
  cbn [flat_map]. rewrite split_on_notin by exact H. cbn [app]. f_equal. exact IH.
Qed.

Lemma element_noslash : forall l, Forall element l -> Forall (fun x => ~ In "/"%char x) l.
Proof. intros l F. eapply Forall_impl; [|exact F]. intros x (_ & _ & _ & H). exact H. Qed.

Lemma slashes_snoc : forall l x, l <> [] -> slashes (l ++ [x]) = slashes l ++ "/"%char :: x.
Proof.
  induction l as [|y l IH]; [congruence|]. intros x _. destruct l as [|z l]; [reflexivity|].
  change (slashes ((y :: z :: l) ++ [x])) with (y ++ "/"%char :: slashes ((z :: l) ++ [x])). rewrite IH by discriminate.
  change (slashes (y :: z :: l)) with (y ++ "/"%char :: slashes (z :: l)). rewrite <- app_assoc. reflexivity.
Qed.

(** ** Walking *)

Definition walk (st es : list str) : list str := fold_left (estep true) es st.

Lemma walk_app : forall st a b, walk st (a ++ b) = walk (walk st a) b.
Proof. intros st a b. apply fold_left_app. Qed.

Lemma eqb_false : forall a b : str, a <> b -> str_eqb a b = false.
Proof. intros a b H. destruct (str_eqb_spec a b); [contradiction|reflexivity]. Qed.

Lemma estep_element : forall r st e, element e -> estep r st e = e :: st.
Proof.
  intros r st e (A & B & C & _). unfold estep. rewrite !eqb_false by assumption. reflexivity.
Qed.

Lemma walk_elements : forall es st, Forall element es -> walk st es = rev es ++ st.
Proof.
  intros es st F. revert st. induction F as [|e es H _ IH]; intros st; [reflexivity|]. unfold walk in *. cbn [fold_left].
  rewrite estep_element by exact H. rewrite IH. cbn [rev]. rewrite <- app_assoc. reflexivity.
Qed.

Lemma walk_stack : forall es st, Forall (fun x => ~ In "/"%char x) es -> Forall element st -> Forall element (walk st es).
Proof.
  intros es st F. revert st. induction F as [|e es H _ IH]; intros st G; [exact G|]. unfold walk in *. cbn [fold_left]. apply IH.
  unfold estep. destruct (str_eqb_spec e []) as [|N1]; [exact G|]. destruct (str_eqb_spec e dot) as [|N2]; [exact G|]. cbn [orb].
  destruct (str_eqb_spec e dots) as [|N3].
  - destruct st as [|t r]; [constructor|]. inversion G as [|? ? (_ & _ & D & _) G']; subst.
    rewrite eqb_false by exact D. exact G'.
  - constructor; [repeat split; assumption|exact G].
Qed.

Lemma walk_up : forall st, Forall element st -> walk st (repeat dots (length st)) = [].
Proof.
  intros st F. induction F as [|t r (_ & _ & D & _) _ IH]; [reflexivity|]. unfold walk in *. cbn [length repeat fold_left].
  unfold estep at 2. rewrite (eqb_false t dots D). exact IH.
Qed.

(** ** Clean paths *)

Lemma clean_rooted : forall p, rooted p = true -> clean p = "/"%char :: slashes (rev (walk [] (split_on "/"%char p))).
Proof. intros p R. unfold clean, walk. rewrite R. reflexivity. Qed.

Lemma rooted_app : forall p q, rooted p = true -> rooted (p ++ q) = true.
Proof. intros [|c p] q R; [discriminate R|exact R]. Qed.

Lemma clean_canonical : forall p, rooted p = true -> exists es, canonical (clean p) es.
Proof.
  intros p R. rewrite clean_rooted by exact R. eexists. split; [reflexivity|]. apply Forall_rev. apply walk_stack; [|constructor].
  apply Forall_forall. intros x I. exact (split_noslash p x I).
Qed.

Lemma walk_nil_first : forall st es, walk st ([] :: es) = walk st es.
Proof. reflexivity. Qed.

Lemma split_rooted : forall p, split_on "/"%char ("/"%char :: p) = [] :: split_on "/"%char p.
Proof. reflexivity. Qed.

Lemma canonical_clean : forall p es, canonical p es -> clean p = p.
Proof.
  intros p es (-> & F). rewrite clean_rooted by reflexivity. rewrite split_rooted, walk_nil_first. destruct es as [|e es]; [reflexivity|].
  rewrite split_parts by (try discriminate; apply element_noslash; exact F). rewrite walk_elements by exact F.
  rewrite app_nil_r, rev_involutive. reflexivity.
Qed.

Lemma clean_again : forall p, rooted p = true -> clean (clean p) = clean p.
Proof. intros p R. destruct (clean_canonical p R) as (es & C). exact (canonical_clean _ es C). Qed.

Lemma join_rooted : forall mp l, rooted mp = true -> join_path (mp :: l) = clean (slashes (mp :: l)).
Proof. intros [|c mp] l R; [discriminate R|reflexivity]. Qed.

Lemma rooted_slashes : forall mp l, rooted mp = true -> rooted (slashes (mp :: l)) = true.
Proof. intros mp [|x l] R; [exact R|]. apply rooted_app. exact R. Qed.

Lemma join_walk : forall mp l, rooted mp = true ->
  join_path (mp :: l) = "/"%char :: slashes (rev (walk [] (flat_map (split_on "/"%char) (mp :: l)))).
Proof.
  intros mp l R. rewrite join_rooted, clean_rooted by (try apply rooted_slashes; exact R). rewrite split_slashes by discriminate. reflexivity.
Qed.

(** ** The directory of a server *)

Lemma last_nonempty : forall {A} (l : list A) x, l ++ [x] <> [].
Proof. intros A [|y l] x; discriminate. Qed.

Lemma store_name : forall sid : str, ~ In "/"%char sid -> element (sid ++ s2l "_store"%string).
Proof.
  intros sid N. repeat split.
  - destruct sid; discriminate.
  - intros E. apply (f_equal (@length ascii)) in E. rewrite app_length in E. cbn [length dot] in E.
    change (length (s2l "_store"%string)) with 6 in E. lia.
  - intros E. apply (f_equal (@length ascii)) in E. rewrite app_length in E. cbn [length dots] in E.
    change (length (s2l "_store"%string)) with 6 in E. lia.
  - intros I. apply in_app_or in I as [I|I]; [exact (N I)|]. cbn in I.
    repeat destruct I as [I|I]; try discriminate I. exact I.
Qed.

(** A stack of a relative path: elements above parents. *)
Definition stack_ok (st : list str) : Prop := exists es k, st = es ++ repeat dots k /\ Forall element es.

Lemma estep_ok : forall r st e, ~ In "/"%char e -> stack_ok st -> stack_ok (estep r st e).
Proof.
  intros r st e H (es & k & -> & F). unfold estep. destruct (str_eqb_spec e []) as [|N1]; [exists es, k; split; [reflexivity|exact F]|].
  destruct (str_eqb_spec e dot) as [|N2]; [exists es, k; split; [reflexivity|exact F]|]. cbn [orb].
  destruct (str_eqb_spec e dots) as [|N3].
  - destruct es as [|t es].
    + cbn [app]. destruct k as [|k]; [destruct r; [exists [], 0|exists [], 1]; split; try reflexivity; constructor|].
      cbn [repeat]. destruct (str_eqb_spec dots dots); [|congruence]. exists [], (S (S k)). split; [reflexivity|constructor].
    + inversion F as [|? ? (_ & _ & D & _) G]; subst. cbn [app]. rewrite eqb_false by exact D. exists es, k. split; [reflexivity|exact G].
  - exists (e :: es), k. split; [reflexivity|]. constructor; [repeat split; assumption|exact F].
Qed.

Lemma fold_ok : forall r es st, Forall (fun x => ~ In "/"%char x) es -> stack_ok st -> stack_ok (fold_left (estep r) es st).
Proof.
  intros r es st F. revert st. induction F as [|e es H _ IH]; intros st G; [exact G|]. cbn [fold_left]. apply IH, estep_ok; assumption.
Qed.

Lemma dots_noslash : ~ In "/"%char dots.
Proof. intros [H|[H|[]]]; discriminate H. Qed.

Lemma stack_noslash : forall st, stack_ok st -> Forall (fun x => ~ In "/"%char x) st.
Proof.
  intros st (es & k & -> & F). apply Forall_app. split; [apply element_noslash; exact F|].
  apply Forall_forall. intros x I. apply repeat_spec in I. subst x. exact dots_noslash.
Qed.

(** What [store_dir] splits into: parents, elements, and its own element at the end. *)
Lemma repeat_snoc : forall {A} (x : A) k, repeat x k ++ [x] = x :: repeat x k.
Proof. intros A x k. induction k as [|k IH]; [reflexivity|]. cbn [repeat app]. rewrite IH. reflexivity. Qed.

Lemma rev_repeat' : forall {A} (x : A) k, rev (repeat x k) = repeat x k.
Proof. intros A x k. induction k as [|k IH]; [reflexivity|]. cbn [repeat rev]. rewrite IH. apply repeat_snoc. Qed.

Lemma fold_parents : forall k, fold_left (estep false) (repeat dots k) [] = repeat dots k.
Proof.
  intros k. induction k as [|k IH]; [reflexivity|]. cbn [repeat]. rewrite <- repeat_snoc at 1. rewrite fold_left_app, IH.
  cbn [fold_left]. destruct k; reflexivity.
Qed.

Lemma fold_elements : forall r es st, Forall element es -> fold_left (estep r) es st = rev es ++ st.
Proof.
  intros r es st F. revert st. induction F as [|e es H _ IH]; intros st; [reflexivity|]. cbn [fold_left].
  rewrite estep_element by exact H. rewrite IH. cbn [rev]. rewrite <- app_assoc. reflexivity.
Qed.

(** The cleaned texts a configuration can have: rooted, or relative and not only the dot. *)
Definition cleaned (p : str) : Prop :=
  (exists es, es <> [] /\ Forall element es /\ p = "/"%char :: slashes es) \/
  (exists es k, es <> [] /\ Forall element es /\ p = slashes (repeat dots k ++ es)).

Lemma clean_cleaned : forall p e, element e -> (p = [] \/ rooted p = true \/ rooted p = false) ->
  cleaned (clean (match p with [] => e | _ => p ++ "/"%char :: e end)).
Proof.
  intros p e He _. destruct p as [|c p].
  - assert (R : rooted e = false).
    { destruct e as [|x e]; [reflexivity|]. unfold rooted. destruct (ascii_dec x "/"%char) as [->|]; [|reflexivity].
      destruct He as (_ & _ & _ & N). destruct N. left. reflexivity. }
    right. exists [e], 0. split; [discriminate|]. split; [constructor; [exact He|constructor]|]. unfold clean. rewrite R.
    rewrite split_on_notin by apply He. cbn [fold_left]. rewrite estep_element by exact He. reflexivity.
  - set (q := c :: p). unfold clean. rewrite split_mid, fold_left_app. rewrite (split_on_notin "/"%char e) by apply He. cbn [fold_left].
    rewrite estep_element by exact He. destruct (rooted (q ++ "/"%char :: e)) eqn:R.
    + left. eexists. split; [|split; [|reflexivity]].
      * cbn [rev]. apply last_nonempty.
      * apply Forall_rev. constructor; [exact He|]. apply (walk_stack (split_on "/"%char q) []); [|constructor].
        apply Forall_forall. intros x I. exact (split_noslash q x I).
    + right. assert (K : stack_ok (fold_left (estep false) (split_on "/"%char q) [])).
      { apply fold_ok; [apply Forall_forall; intros x I; exact (split_noslash q x I)|]. exists [], 0. split; [reflexivity|constructor]. }
      destruct K as (es & k & E & F). exists (rev es ++ [e]), k. split; [apply last_nonempty|].
      split; [apply Forall_app; split; [apply Forall_rev; exact F|constructor; [exact He|constructor]]|].
      rewrite E. cbn [rev]. rewrite rev_app_distr, rev_repeat'.
      destruct ((repeat dots k ++ rev es) ++ [e]) as [|y l] eqn:E2; [destruct (last_nonempty _ _ E2)|].
      rewrite <- E2, <- app_assoc. reflexivity.
Qed.

Lemma store_cleaned : forall storage sid, ~ In "/"%char sid -> cleaned (store_dir storage sid).
Proof.
  intros storage sid N. pose proof (store_name sid N) as He.
  pose proof (clean_cleaned storage (sid ++ s2l "_store"%string) He) as H.
  unfold store_dir. destruct storage as [|c p].
  - destruct (sid ++ s2l "_store"%string) as [|x l] eqn:E; [destruct sid; discriminate E|]. cbn [join_path]. cbn [slashes].
    apply H. left. reflexivity.
  - cbn [join_path]. change (slashes [c :: p; sid ++ s2l "_store"%string]) with ((c :: p) ++ "/"%char :: (sid ++ s2l "_store"%string)).
    apply H. right. destruct (rooted (c :: p)); [left|right]; reflexivity.
Qed.

(** Walking through such a text ends in an element, and a further element stays behind it. *)
Lemma cleaned_walk : forall p, cleaned p -> exists es front, es <> [] /\ Forall element es /\
  split_on "/"%char p = front ++ es /\ Forall (fun x => ~ In "/"%char x) front.
Proof.
  intros p [(es & Ne & F & ->)|(es & k & Ne & F & ->)].
  - exists es, [[]]. split; [exact Ne|]. split; [exact F|]. rewrite split_rooted.
    rewrite split_parts by (try exact Ne; apply element_noslash; exact F). split; [reflexivity|]. constructor; [intros []|constructor].
  - exists es, (repeat dots k). split; [exact Ne|]. split; [exact F|].
    assert (G : Forall (fun x => ~ In "/"%char x) (repeat dots k)).
    { apply Forall_forall. intros x I. apply repeat_spec in I. subst x. exact dots_noslash. }
    split; [|exact G]. apply split_parts.
    + destruct es as [|e es]; [congruence|]. destruct (repeat dots k); discriminate.
    + apply Forall_app. split; [exact G|apply element_noslash; exact F].
Qed.

Lemma cleaned_snoc : forall p e, cleaned p -> element e -> join_path [p; e] = p ++ "/"%char :: e.
Proof.
  intros p e C He. assert (P : p <> []).
  { destruct C as [(es & _ & _ & ->)|(es & k & Ne & F & ->)]; [discriminate|].
    destruct k as [|k]; cbn [repeat app].
    - destruct es as [|x es]; [congruence|]. inversion F as [|? ? (X & _) _]; subst. destruct es as [|y es]; cbn [slashes]; [exact X|].
      destruct x; [congruence|discriminate].
    - destruct (repeat dots k ++ es); discriminate. }
  destruct p as [|c p']; [congruence|]. set (p := c :: p') in *. change (clean (p ++ "/"%char :: e) = p ++ "/"%char :: e).
  unfold clean. rewrite split_mid, fold_left_app, (split_on_notin "/"%char e) by apply He. cbn [fold_left].
  destruct C as [(es & Ne & F & E)|(es & k & Ne & F & E)].
  - rewrite E. change (rooted (("/"%char :: slashes es) ++ "/"%char :: e)) with true. cbv iota.
    rewrite estep_element by exact He. rewrite split_rooted. cbn [fold_left].
    change (estep true [] []) with (@nil str). rewrite split_parts by (try exact Ne; apply element_noslash; exact F).
    rewrite fold_elements by exact F. rewrite app_nil_r. cbn [rev]. rewrite rev_involutive, slashes_snoc by exact Ne. reflexivity.
  - assert (R : rooted (p ++ "/"%char :: e) = false).
    { rewrite E. destruct k as [|k]; cbn [repeat app].
      - destruct es as [|x es]; [congruence|]. inversion F as [|? ? (X & _ & _ & Y) _]; subst.
        assert (Z : rooted x = false).
        { destruct x as [|c0 x]; [reflexivity|]. cbn [rooted]. destruct (ascii_dec c0 "/"%char) as [->|]; [destruct Y; left; reflexivity|reflexivity]. }
        destruct x as [|c0 x]; [congruence|]. destruct es; exact Z.
      - destruct (repeat dots k ++ es); reflexivity. }
    rewrite R. rewrite estep_element by exact He.
    assert (Q : split_on "/"%char p = repeat dots k ++ es).
    { rewrite E. apply split_parts; [destruct es; [congruence|]; destruct (repeat dots k); discriminate|].
      apply Forall_app. split; [|apply element_noslash; exact F]. apply Forall_forall. intros x I. apply repeat_spec in I. subst x. exact dots_noslash. }
    rewrite Q, fold_left_app, fold_parents, fold_elements by exact F. cbn [rev]. rewrite rev_app_distr, rev_involutive, rev_repeat'.
    destruct ((repeat dots k ++ es) ++ [e]) as [|y l] eqn:E2; [destruct (last_nonempty _ _ E2)|]. rewrite <- E2, slashes_snoc, <- E; [reflexivity|].
    destruct es; [congruence|]; destruct (repeat dots k); discriminate.
Qed.

Section Server.
  Variable s : dserver.
  Variable mp : str.
  Hypothesis Rmp : rooted mp = true.
  Hypothesis Nsid : ~ In "/"%char (ds_sid s).

  (** The elements of the storage directory. *)
  Definition dir_stack : list str := walk [] (split_on "/"%char mp ++ split_on "/"%char (store_dir (ds_storage s) (ds_sid s))).

  Lemma dir_elements : Forall element dir_stack.
  Proof.
    apply walk_stack; [|constructor]. apply Forall_forall. intros x I. apply in_app_or in I as [I|I]; exact (split_noslash _ x I).
  Qed.

  Lemma dir_nonempty : dir_stack <> [].
  Proof.
    destruct (cleaned_walk _ (store_cleaned (ds_storage s) (ds_sid s) Nsid)) as (es & front & Ne & F & E & G).
    unfold dir_stack. rewrite E, app_assoc, walk_app, (walk_elements es) by exact F. destruct es as [|x es]; [congruence|].
    cbn [rev]. intros H. apply (f_equal (@length str)) in H. rewrite !app_length in H. cbn [length] in H. lia.
  Qed.

  Lemma home_eq : home s mp = "/"%char :: slashes (rev dir_stack).
  Proof. unfold home, dir_stack. rewrite join_walk by exact Rmp. cbn [flat_map]. rewrite app_nil_r. reflexivity. Qed.

  Lemma object_walk : forall name, object_path s mp name = "/"%char :: slashes (rev (walk dir_stack (split_on "/"%char name))).
  Proof.
    intros name. unfold object_path, dir_stack. rewrite join_walk by exact Rmp. cbn [flat_map]. rewrite app_nil_r, app_assoc, walk_app. reflexivity.
  Qed.

  Lemma object_child : forall name, element name -> object_path s mp name = home s mp ++ "/"%char :: name.
  Proof.
    intros name He. rewrite object_walk, (split_on_notin "/"%char name) by apply He. unfold walk. cbn [fold_left].
    rewrite estep_element by exact He. cbn [rev]. rewrite slashes_snoc; [rewrite home_eq; reflexivity|].
    intros H. apply dir_nonempty. apply (f_equal (@rev str)) in H. rewrite rev_involutive in H. exact H.
  Qed.

  Lemma found_path : forall name, element name ->
    join_path [mp; join_path [store_dir (ds_storage s) (ds_sid s); name]] = object_path s mp name.
  Proof.
    intros name He. rewrite (cleaned_snoc _ name (store_cleaned (ds_storage s) (ds_sid s) Nsid) He).
    rewrite object_walk, join_walk by exact Rmp. cbn [flat_map]. rewrite app_nil_r, split_mid, app_assoc, walk_app. reflexivity.
  Qed.

  Lemma escape : forall target ts, canonical target ts -> ts <> [] ->
    exists name, name <> [] /\ object_path s mp name = target.
  Proof.
    intros target ts (-> & F) Ne. exists (slashes (repeat dots (length dir_stack) ++ ts)).
    assert (Q : split_on "/"%char (slashes (repeat dots (length dir_stack) ++ ts)) = repeat dots (length dir_stack) ++ ts).
    { apply split_parts; [destruct ts; [congruence|]; destruct (repeat dots _); discriminate|].
      apply Forall_app. split; [|apply element_noslash; exact F]. apply Forall_forall. intros x I. apply repeat_spec in I. subst x. exact dots_noslash. }
    split.
    - intros H. rewrite H in Q. cbn [split_on] in Q. pose proof dir_nonempty as D. destruct dir_stack; [congruence|]. discriminate Q.
    - rewrite object_walk, Q, walk_app, walk_up by apply dir_elements. rewrite walk_elements by exact F. rewrite app_nil_r, rev_involutive. reflexivity.
  Qed.
End Server.

(** ** Files *)

Lemma set_key_same : forall {A} (f : str -> A) k v, set_key f k v k = v.
Proof. intros A f k v. unfold set_key. rewrite str_eqb_refl. reflexivity. Qed.
Lemma set_key_other : forall {A} (f : str -> A) k v x, x <> k -> set_key f k v x = f x.
Proof. intros A f k v x H. unfold set_key. rewrite eqb_false by exact H. reflexivity. Qed.

Lemma find_real_fs : forall s name r s1, find_real s name = (r, s1) ->
  ds_fs s1 = ds_fs s /\ ds_dirs s1 = ds_dirs s /\ ds_mps s1 = ds_mps s /\ ds_storage s1 = ds_storage s /\ ds_sid s1 = ds_sid s /\ ds_cache s1 = ds_cache s.
Proof.
  intros s name r s1 H. unfold find_real in H. destruct (path_last (ds_index s name)); [injection H as _ <-; repeat split; reflexivity|].
  destruct (find_mount s (ds_mps s) _); injection H as _ <-; repeat split; reflexivity.
Qed.

Lemma exist_fs : forall s name r s1, exist s name = (r, s1) ->
  ds_fs s1 = ds_fs s /\ ds_dirs s1 = ds_dirs s /\ ds_mps s1 = ds_mps s /\ ds_storage s1 = ds_storage s /\ ds_sid s1 = ds_sid s.
Proof.
  intros s name r s1 H. unfold exist in H.
  destruct (ds_cache s (locate_prefix ++ name)); [injection H as _ <-; repeat split; reflexivity|].
  destruct (ds_cache s name); [injection H as _ <-; repeat split; reflexivity|].
  destruct (find_real s name) as [[p|] s2] eqn:E; pose proof (find_real_fs _ _ _ _ E) as (A & B & C & D & G & _).
  - destruct (there s2 p); injection H as _ <-; repeat split; assumption.
  - injection H as _ <-. repeat split; assumption.
Qed.

Lemma path_last_first : forall p, path_last (path_put None p) = None.
Proof.
  intros p. unfold path_last, path_put. rewrite cut_last_none; [reflexivity|apply encode_nosep].
Qed.

Lemma find_mount_in : forall s mps path q, find_mount s mps path = Some q ->
  there s q = true /\ exists mp, In mp mps /\ q = join_path [mp; path].
Proof.
  intros s mps path q. induction mps as [|m r IH]; [discriminate|]. cbn [find_mount].
  destruct (there s (join_path [m; path])) eqn:T; [intros [= <-]; split; [exact T|exists m; split; [left|]; reflexivity]|].
  intros H. destruct (IH H) as (A & mp & I & E). split; [exact A|]. exists mp. split; [right; exact I|exact E].
Qed.

Lemma find_mount_none : forall s mps path mp, find_mount s mps path = None -> In mp mps -> there s (join_path [mp; path]) = false.
Proof.
  intros s mps path mp. induction mps as [|m r IH]; intros H I; [destruct I|]. cbn [find_mount] in H.
  destruct (there s (join_path [m; path])) eqn:Tm; [discriminate H|]. destruct I as [->|I]; [exact Tm|exact (IH H I)].
Qed.

Lemma find_mount_after : forall s mps path q v mp, find_mount s mps path = None -> In mp mps -> join_path [mp; path] = q ->
  forall s', ds_dirs s' = ds_dirs s -> (forall p, ds_fs s' p = set_key (ds_fs s) q (Some v) p) -> find_mount s' mps path = Some q.
Proof.
  intros s mps path q v mp H I E s' D F. induction mps as [|m r IH]; [destruct I|]. cbn [find_mount] in H |- *.
  destruct (there s (join_path [m; path])) eqn:Tm; [discriminate H|].
  destruct (str_eqb_spec (join_path [m; path]) q) as [Em|Em].
  - rewrite Em. unfold there. rewrite F, set_key_same, orb_true_r. reflexivity.
  - assert (T' : there s' (join_path [m; path]) = false) by (unfold there in *; rewrite D, F, set_key_other by exact Em; exact Tm).
    rewrite T'. destruct I as [->|I]; [congruence|exact (IH H I)].
Qed.

Lemma last_dot_none : forall name, last_dot name = None <-> ~ In "."%char name.
Proof.
  induction name as [|c r IH]; [split; [intros _ []|reflexivity]|]. cbn [last_dot]. destruct (last_dot r) as [[a b]|].
  - split; [discriminate|]. intros H. destruct IH as [_ IH]. discriminate IH. intros I. apply H. right. exact I.
  - destruct IH as [IH _]. specialize (IH eq_refl). destruct (ascii_dec c "."%char) as [->|N].
    + split; [discriminate|]. intros H. destruct H. left. reflexivity.
    + split; [|reflexivity]. intros _ [I|I]; [congruence|exact (IH I)].
Qed.
