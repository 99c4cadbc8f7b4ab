(** Proofs about mails about errors (Notice_Model.v against Notice_Spec.v). *)
From Verif Require Import Str_Model Util_Model Bind_Model Notice_Model Notice_Spec.
From Verif Require Bind_Proofs.
From Coq Require Import Permutation.
Local Open Scope list_scope.

(** ** Pages *)

(** The tag begun and not ended behind a text (error_hook.go 26-31; a helper of the proofs). *)
Fixpoint after (tag : option str) (s : str) : option str :=
  match s with
  | [] => tag
  | c :: s =>
      match tag with
      | None => after (if ascii_dec c "<" then Some [] else None) s
      | Some t => after (if ascii_dec c ">" then None else Some (t ++ [c])) s
      end
  end.

Lemma marks_app : forall a tag b, marks tag (a ++ b) = marks tag a ++ marks (after tag a) b.
Proof.
  induction a as [|c a IH]; intros tag b; [reflexivity|]. cbn [app marks after].
  destruct tag as [t|].
  - destruct (ascii_dec c ">"); [rewrite IH; reflexivity|apply IH].
  - apply IH.
Qed.

Lemma after_app : forall a tag b, after tag (a ++ b) = after (after tag a) b.
Proof. induction a as [|c a IH]; intros tag b; [reflexivity|]. cbn [app after]. destruct tag; apply IH. Qed.

Lemma marks_plain : forall a, ~ In "<"%char a -> marks None a = [] /\ after None a = None.
Proof.
  induction a as [|c a IH]; intros P; [split; reflexivity|]. cbn [marks after].
  destruct (ascii_dec c "<") as [->|]; [exfalso; apply P; left; reflexivity|].
  apply IH. intros I. apply P. right. exact I.
Qed.

(** Whether a text leaves a tag open (error_hook.go 26-31; a helper of the proofs). *)
Fixpoint opened (tag : bool) (s : str) : bool :=
  match s with
  | [] => tag
  | c :: s =>
      if tag then opened (if ascii_dec c ">" then false else true) s
      else if ascii_dec c "<" then opened true s else opened false s
  end.

Lemma outside_app : forall a tag b, outside tag (a ++ b) = outside tag a ++ outside (opened tag a) b.
Proof.
  induction a as [|c a IH]; intros tag b; [reflexivity|]. cbn [app outside opened].
  destruct tag; [apply IH|]. destruct (ascii_dec c "<"); [apply IH|]. cbn [app]. rewrite IH. reflexivity.
Qed.

Lemma outside_plain : forall a, ~ In "<"%char a -> outside false a = a /\ opened false a = false.
Proof.
  induction a as [|c a IH]; intros P; [split; reflexivity|]. cbn [outside opened].
  destruct (ascii_dec c "<") as [->|]; [exfalso; apply P; left; reflexivity|].
  destruct IH as [A B]; [intros I; apply P; right; exact I|]. rewrite A, B. split; reflexivity.
Qed.

Lemma no_name : forall c s, c <> "&"%char -> List.find (fun n => begins (fst n) (c :: s)) names = None.
Proof.
  intros c s D. assert (B : forall n, begins ("&"%char :: n) (c :: s) = false).
  { intros n. cbn [begins]. destruct (ascii_dec "&" c) as [E|]; [exfalso; apply D; symmetry; exact E|reflexivity]. }
  unfold names. cbn [List.find fst]. unfold s2l. cbn [list_ascii_of_string].
  rewrite !B. reflexivity.
Qed.

Lemma resolve_plain : forall a b, ~ In "&"%char a -> resolve 0 (a ++ b) = a ++ resolve 0 b.
Proof.
  induction a as [|c a IH]; intros b P; [reflexivity|]. cbn [app resolve].
  rewrite no_name by (intros ->; apply P; left; reflexivity).
  rewrite IH by (intros I; apply P; right; exact I). reflexivity.
Qed.

Lemma head_closed : after None page_head = None /\ opened false page_head = false.
Proof. split; reflexivity. Qed.

Lemma head_text : existsb (fun c => if ascii_dec c "&" then true else false) (outside false page_head) = false.
Proof. reflexivity. Qed.

Lemma head_no_amp : ~ In "&"%char (outside false page_head).
Proof.
  intros I. pose proof head_text as H. assert (T : existsb (fun c => if ascii_dec c "&" then true else false) (outside false page_head) = true).
  { apply existsb_exists. exists "&"%char. split; [exact I|reflexivity]. }
  rewrite H in T. discriminate.
Qed.

Lemma drawn_plain : forall l, plain l -> drawn (page_head ++ l ++ page_tail) = drawn (page_head ++ page_tail).
Proof.
  intros l [A B]. destruct head_closed as [H1 H2]. destruct (marks_plain l A) as [M1 M2].
  unfold drawn. rewrite !marks_app, H1, M1, M2. reflexivity.
Qed.

Lemma page_says : forall l, plain l -> says (page_head ++ l ++ page_tail) l.
Proof.
  intros l P. split; [rewrite drawn_plain by exact P; reflexivity|].
  destruct P as [A B]. destruct head_closed as [H1 H2]. destruct (outside_plain l A) as [O1 O2].
  exists (indent ++ indent ++ s2l "  "), (indent ++ s2l "  "), (indent ++ indent).
  repeat split; try (repeat (constructor; [cbn; tauto|]); constructor).
  unfold seen. rewrite !outside_app, H2, O1, O2.
  rewrite resolve_plain by exact head_no_amp. rewrite resolve_plain by exact B. reflexivity.
Qed.

(** The name of a tag, up to its end. *)
Lemma marks_tag : forall x t b, ~ In ">"%char x -> marks (Some t) (x ++ ">"%char :: b) = (t ++ x) :: marks None b.
Proof.
  induction x as [|c x IH]; intros t b P.
  - cbn [app marks]. destruct (ascii_dec ">" ">"); [rewrite app_nil_r; reflexivity|congruence].
  - cbn [app marks]. destruct (ascii_dec c ">") as [->|]; [exfalso; apply P; left; reflexivity|].
    rewrite IH by (intros I; apply P; right; exact I). rewrite <- app_assoc. reflexivity.
Qed.

Lemma drawn_tag : forall a x b, ~ In "<"%char a -> ~ In ">"%char x ->
  In x (drawn (page_head ++ a ++ "<"%char :: x ++ ">"%char :: b)).
Proof.
  intros a x b A X. unfold drawn. destruct head_closed as [H1 _]. destruct (marks_plain a A) as [M1 M2].
  rewrite !marks_app, H1, M1, M2. apply in_or_app. right. cbn [app marks].
  destruct (ascii_dec "<" "<"); [|congruence]. rewrite marks_tag by exact X. left. reflexivity.
Qed.

(** ** Levels *)

Lemma to_level_low : forall s, (2 <= grade (to_level s))%nat.
Proof.
  intros s. unfold to_level.
  repeat match goal with |- context [if ?b then _ else _] => destruct b end; cbn; lia.
Qed.

Lemma eqb_nil : forall s : str, negb (str_eqb s []) = true <-> s <> [].
Proof.
  intros s. unfold str_eqb. destruct (str_eq_dec s []) as [->|D]; cbn; split; intros H; try discriminate; try contradiction; try exact D; reflexivity.
Qed.

Lemma valid_iff : forall c, is_valid c = true <-> set_up c.
Proof.
  intros c. unfold is_valid, set_up. rewrite !andb_true_iff, !eqb_nil. tauto.
Qed.

Lemma fires_iff : forall c lv e, fires c lv e = true <-> set_up c /\ grave e.
Proof.
  intros c lv e. unfold fires, grave. rewrite !andb_true_iff, valid_iff, Nat.leb_le.
  pose proof (to_level_low lv) as L. generalize dependent (grade (to_level lv)). intros g L. destruct (e_level e); simpl; split; intros H;
    repeat match goal with H : _ /\ _ |- _ => destruct H | H : _ \/ _ |- _ => destruct H end;
    try discriminate; (split; [split; [lia|assumption]|reflexivity]) || (split; [assumption|auto]).
Qed.

(** ** Runs *)

Lemma drop_perm : forall {A} (l : list A) i m, nth_error l i = Some m -> Permutation l (m :: drop i l).
Proof.
  induction l as [|x l IH]; intros [|i] m H; cbn in H; try discriminate.
  - injection H as <-. reflexivity.
  - cbn [drop]. rewrite (IH i m H) at 1. apply perm_swap.
Qed.

Definition is_grave (e : entry) : bool := match e_level e with Panic | Fatal | Error => true | _ => false end.

Lemma is_grave_iff : forall e, is_grave e = true <-> grave e.
Proof.
  intros e. unfold is_grave, grave. destruct (e_level e); split; intros H; auto; try discriminate;
    repeat destruct H as [H|H]; discriminate.
Qed.

Lemma fires_grave : forall c lv e, set_up c -> fires c lv e = is_grave e.
Proof.
  intros c lv e S1. destruct (is_grave e) eqn:G.
  - apply fires_iff. split; [exact S1|apply is_grave_iff; exact G].
  - destruct (fires c lv e) eqn:F; [|reflexivity]. apply fires_iff in F. destruct F as [_ F].
    apply is_grave_iff in F. congruence.
Qed.

(** What becomes of the mails from a state on (a helper of the proofs). *)
Lemma dead : forall c lv evs s, lives s = false -> fold_left (step c lv) evs s = s.
Proof.
  intros c lv evs. induction evs as [|ev evs IH]; intros s D; [reflexivity|].
  cbn [fold_left]. unfold step at 2. rewrite D. apply IH. exact D.
Qed.

Lemma kept : forall c lv, set_up c -> forall evs s, lives s = true ->
  exists lost, Permutation (sent (fold_left (step c lv) evs s) ++ pending (fold_left (step c lv) evs s) ++ lost)
                           (sent s ++ pending s ++ due c evs) /\
               (calm evs -> lost = [] /\ lives (fold_left (step c lv) evs s) = true).
Proof.
  intros c lv SU evs. induction evs as [|ev evs IH]; intros s L.
  - exists []. cbn [fold_left]. unfold due. cbn [logged filter map]. split; [reflexivity|auto].
  - cbn [fold_left]. destruct ev as [e|i taken|].
    + assert (ST : step c lv s (Log e) = if is_grave e then mk_state (pending s ++ [mail_of c e]) (sent s) true else s).
      { unfold step. rewrite L, fires_grave by exact SU. reflexivity. }
      assert (D : due c (Log e :: evs) = (if is_grave e then [mail_of c e] else []) ++ due c evs).
      { unfold due. cbn [logged filter]. fold (is_grave e). unfold is_grave at 1. unfold is_grave.
        destruct (e_level e); reflexivity. }
      rewrite ST, D. clear ST D. destruct (is_grave e).
      * destruct (IH (mk_state (pending s ++ [mail_of c e]) (sent s) true) eq_refl) as [lost [P C]].
        exists lost. split; [|intros [C1 C2]; apply C; split; [intros I; apply C1; right; exact I|intros i I; apply (C2 i); right; exact I]].
        etransitivity; [exact P|]. cbn [sent pending]. rewrite <- app_assoc. reflexivity.
      * destruct (IH s L) as [lost [P C]]. exists lost. split; [exact P|].
        intros [C1 C2]; apply C; split; [intros I; apply C1; right; exact I|intros i I; apply (C2 i); right; exact I].
    + change (due c (Done i taken :: evs)) with (due c evs).
      assert (K : calm (Done i taken :: evs) -> calm evs /\ taken = true).
      { intros [C1 C2]. split; [split; [intros I; apply C1; right; exact I|intros j I; apply (C2 j); right; exact I]|].
        destruct taken; [reflexivity|]. exfalso. apply (C2 i). left. reflexivity. }
      unfold step at 2 4 6. rewrite L. destruct (nth_error (pending s) i) as [m|] eqn:NE.
      * destruct (IH (mk_state (drop i (pending s)) (if taken then sent s ++ [m] else sent s) true) eq_refl) as [lost [P C]].
        pose proof (drop_perm _ _ _ NE) as DP. destruct taken.
        -- exists lost. split; [|intros X; apply C; apply K; exact X].
           etransitivity; [exact P|]. cbn [sent pending]. rewrite <- app_assoc. apply Permutation_app_head.
           change (Permutation ((m :: drop i (pending s)) ++ due c evs) (pending s ++ due c evs)).
           apply Permutation_app_tail. symmetry. exact DP.
        -- exists (m :: lost). split; [|intros X; apply K in X; destruct X; discriminate].
           cbn [sent pending] in P.
           transitivity (m :: sent (fold_left (step c lv) evs (mk_state (drop i (pending s)) (sent s) true)) ++
                              pending (fold_left (step c lv) evs (mk_state (drop i (pending s)) (sent s) true)) ++ lost).
           { rewrite !app_assoc. symmetry. apply Permutation_middle. }
           etransitivity; [apply perm_skip; exact P|].
           etransitivity; [apply (Permutation_middle (sent s) (drop i (pending s) ++ due c evs) m)|].
           apply Permutation_app_head. change (Permutation ((m :: drop i (pending s)) ++ due c evs) (pending s ++ due c evs)).
           apply Permutation_app_tail. symmetry. exact DP.
      * destruct (IH s L) as [lost [P C]]. exists lost. split; [exact P|intros X; apply C; apply K; exact X].
    + unfold step at 2 4 6. rewrite L, dead by reflexivity. cbn [sent pending].
      exists (pending s). unfold due. cbn [logged filter map app]. rewrite app_nil_r. split; [reflexivity|].
      intros [C1 _]. exfalso. apply C1. left. reflexivity.
Qed.

Lemma silent : forall c lv evs, is_valid c = false -> forall s, pending s = [] -> sent s = [] ->
  pending (fold_left (step c lv) evs s) = [] /\ sent (fold_left (step c lv) evs s) = [].
Proof.
  intros c lv evs V. induction evs as [|ev evs IH]; intros s P T; [auto|]. cbn [fold_left].
  unfold step at 2 4. destruct (lives s); [|apply IH; assumption].
  destruct ev as [e|i taken|].
  - unfold fires. rewrite V, andb_false_r. apply IH; assumption.
  - rewrite P. destruct i; cbn [nth_error]; apply IH; assumption.
  - apply IH; [reflexivity|exact T].
Qed.

(** ** The request *)

Lemma quote_kept : forall c, kept_char c -> quote_char c = [c].
Proof.
  intros c (A & B & D). unfold quote_char. cbv zeta.
  repeat match goal with
  | |- context [(?a =? ?b)%N] => let E := fresh in destruct (N.eqb_spec a b) as [E|E]; [exfalso; lia|]
  | |- context [(?a <? ?b)%N] => let E := fresh in destruct (N.ltb_spec a b) as [E|E]; [exfalso; lia|]
  end.
  reflexivity.
Qed.

Lemma quote_all : forall s, Forall kept_char s -> quote s = quotes s.
Proof.
  intros s F. unfold quote. f_equal. induction F as [|c s K F IH]; [reflexivity|].
  cbn [map List.concat]. rewrite quote_kept by exact K. rewrite IH. reflexivity.
Qed.

(** The request with a text in the header Version (metadata_api.go 28-37; a helper). *)
Definition asking (t : str) : request :=
  mk_request (fun _ => []) (fun _ => [])
    (fun k => if str_eqb k (s2l "Version") then [t] else if str_eqb k (s2l "Bucket") then [s2l "b"] else []) None.

Lemma asking_error : forall dec t, t <> [] -> atoi t = None ->
  bind_error dec meta_get (asking t) =
  Some (Other (s2l "*strconv.NumError") (num_error (s2l "ParseInt") t (looks_int t))).
Proof.
  intros dec t NE AT. unfold bind_error.
  assert (FB : first_bad dec (asking t) Header (b_fields meta_get) =
               Some (Other (s2l "*strconv.NumError") (num_error (s2l "ParseInt") t (looks_int t)))).
  { unfold meta_get, b_fields, first_bad.
    assert (F1 : find dec (asking t) Header (f_in Uri "Name" "name" KText Any) = Absent) by reflexivity.
    assert (F2 : find dec (asking t) Header (f_in Header "Bucket" "bucket" KText Required) = Good (VText (s2l "b"))) by reflexivity.
    assert (F3 : find dec (asking t) Header (f_in Query "Version" "version" (KInt 32) Any) = Bad).
    { change (match convert dec (KInt 32) [t] with Some v => Good v | None => Bad end = Bad).
      unfold convert. cbn [hd]. destruct t as [|c t']; [contradiction|]. unfold parse_int. rewrite AT. reflexivity. }
    rewrite F1, F2, F3. reflexivity. }
  change (last (b_srcs meta_get) Uri) with Header. rewrite FB.
  assert (B : snd (bind dec meta_get (asking t)) = false).
  { unfold bind, bind_all. change (b_srcs meta_get) with [Uri; Query; Header]. cbn [fold_left].
    assert (SF : forall o : list value, List.length o = 3%nat -> snd (set_fields dec (asking t) Header (b_fields meta_get) o) = false).
    { intros o LO. destruct o as [|v1 [|v2 [|v3 [|v4 o]]]]; cbn in LO; try discriminate.
      unfold meta_get, b_fields, set_fields.
      assert (F1 : find dec (asking t) Header (f_in Uri "Name" "name" KText Any) = Absent) by reflexivity.
      assert (F2 : find dec (asking t) Header (f_in Header "Bucket" "bucket" KText Required) = Good (VText (s2l "b"))) by reflexivity.
      assert (F3 : find dec (asking t) Header (f_in Query "Version" "version" (KInt 32) Any) = Bad).
      { change (match convert dec (KInt 32) [t] with Some v => Good v | None => Bad end = Bad).
        unfold convert. cbn [hd]. destruct t as [|c t']; [contradiction|]. unfold parse_int. rewrite AT. reflexivity. }
      rewrite F1, F2, F3. reflexivity. }
    unfold pass at 1. cbn [snd]. rewrite SF; [reflexivity|].
    rewrite !Bind_Proofs.pass_length; reflexivity. }
  rewrite B. reflexivity.
Qed.

Lemma tag_not_int : forall x, atoi ("<"%char :: x) = None.
Proof. intros x. reflexivity. Qed.

(** ** The end of the process *)

Lemma logged_app : forall evs l, ~ In Exit evs -> logged (evs ++ l) = logged evs ++ logged l.
Proof.
  induction evs as [|[e|i t|] evs IH]; intros l NE; cbn [app logged].
  - reflexivity.
  - rewrite IH; [reflexivity|]. intros I. apply NE. right. exact I.
  - apply IH. intros I. apply NE. right. exact I.
  - exfalso. apply NE. left. reflexivity.
Qed.

Lemma still_lives : forall c lv evs, ~ In Exit evs -> forall s, lives s = true -> lives (fold_left (step c lv) evs s) = true.
Proof.
  intros c lv evs. induction evs as [|ev evs IH]; intros NE s L; [exact L|]. cbn [fold_left].
  apply IH; [intros I; apply NE; right; exact I|]. unfold step. rewrite L. destruct ev as [e|i t|].
  - destruct (fires c lv e); [reflexivity|exact L].
  - destruct (nth_error (pending s) i); [reflexivity|exact L].
  - exfalso. apply NE. left. reflexivity.
Qed.
