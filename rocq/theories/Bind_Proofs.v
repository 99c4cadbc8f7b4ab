From Verif Require Import Str_Model Util_Model Str_Proofs Bind_Model Bind_Spec.
Local Open Scope Z_scope.
Local Open Scope list_scope.

Lemma eqb_str' : forall a b, str_eqb a b = true <-> a = b.
Proof. intros a b. unfold str_eqb. destruct (str_eq_dec a b); split; congruence. Qed.

(** ** Texts *)

Definition plain (k : kind) : bool := match k with KText | KInt _ | KBool => true | _ => false end.

Lemma fits_iff : forall b z, fits b z = true <-> - 2 ^ (b - 1) <= z < 2 ^ (b - 1).
Proof. intros b z. unfold fits. rewrite andb_true_iff, Z.leb_le, Z.ltb_lt. reflexivity. Qed.

Lemma existsb_in : forall s l, existsb (str_eqb s) l = true <-> In s l.
Proof.
  intros s l. rewrite existsb_exists. split.
  - intros (x & I & E). apply eqb_str' in E as ->. exact I.
  - intros I. exists s. split; [exact I|]. now apply eqb_str'.
Qed.

Lemma words_apart : forall s, In s (map s2l ["0"; "f"; "F"; "false"; "FALSE"; "False"]%string) ->
  existsb (str_eqb s) (map s2l ["1"; "t"; "T"; "true"; "TRUE"; "True"]%string) = false.
Proof. intros s I. repeat (destruct I as [<-|I]; [vm_compute; reflexivity|]). destruct I. Qed.

Lemma convert_iff : forall dec k x r v, plain k = true ->
  (convert dec k (x :: r) = Some v <-> written k x v).
Proof.
  intros dec k x r v P. destruct k as [|bits| | | |]; try discriminate P; unfold convert; cbn [hd].
  - split; [intros [= <-]; constructor|]. intros W. inversion W. reflexivity.
  - destruct x as [|c x].
    + split; [intros [= <-]; constructor|]. intros W. inversion W; subst; [reflexivity|].
      match goal with H : atoi _ = Some _ |- _ => vm_compute in H; discriminate H end.
    + unfold parse_int. split.
      * destruct (atoi (c :: x)) as [z|] eqn:A; [|discriminate]. destruct (fits bits z) eqn:F; [|discriminate].
        intros [= <-]. apply W_int; [exact A|now apply fits_iff].
      * intros W. inversion W as [| |b0 s0 z A F| | |]; subst. rewrite A. apply fits_iff in F. rewrite F. reflexivity.
  - destruct x as [|c x].
    + split; [intros [= <-]; constructor|]. intros W. inversion W; subst; [reflexivity| |];
        repeat (match goal with H : In _ _ |- _ => destruct H as [H|H]; [vm_compute in H; discriminate H|] end);
        match goal with H : In _ _ |- _ => destruct H end.
    + set (s := c :: x). unfold parse_bool. split.
      * destruct (existsb _ _) eqn:E1; [intros [= <-]; apply W_true; now apply existsb_in|].
        destruct (existsb (str_eqb s) (map s2l ["0"; "f"; "F"; "false"; "FALSE"; "False"]%string)) eqn:E2; [|discriminate].
        intros [= <-]. apply W_false. now apply existsb_in.
      * intros W. inversion W as [| | | |s0 I|s0 I]; subst.
        -- apply existsb_in in I. rewrite I. reflexivity.
        -- rewrite (words_apart s I). apply existsb_in in I. rewrite I. reflexivity.
Qed.

Lemma obeys_iff : forall r v, obeys r v = true <-> lawful r v.
Proof.
  intros r v. destruct r as [| |n], v as [s|z|b|l]; cbn;
    try (split; [intros _; constructor|reflexivity]).
  - destruct s; split; [discriminate|intros L; inversion L|intros _; constructor|reflexivity].
  - rewrite negb_true_iff, Z.eqb_neq. split; [constructor; assumption|intros L; now inversion L].
  - destruct b; split; [intros _; constructor|reflexivity|discriminate|intros L; inversion L].
  - destruct l; split; [discriminate|intros L; inversion L|intros _; constructor|reflexivity].
  - rewrite Z.leb_le. split; [constructor; assumption|intros L; now inversion L].
  - rewrite Z.leb_le. split; [constructor; assumption|intros L; now inversion L].
  - split; [discriminate|intros L; inversion L].
  - rewrite Z.leb_le. split; [constructor; assumption|intros L; now inversion L].
Qed.

Definition source_dec : forall a b : source, {a = b} + {a <> b}.
Proof. decide equality. Defined.

(** ** One pass *)

Section Pass.
Context (dec : str -> bool) (q : request).

(** Tags of one form source per field. *)
Definition only (s : source) (f : field) : Prop :=
  (exists t, tag s f = Some t) /\ forall s', s' <> s -> tag s' f = None.

Definition untouched (s : source) (f : field) : Prop := tag s f = None -> find dec q s f = Absent.

Lemma set_length : forall s fs o, List.length o = List.length fs -> List.length (fst (set_fields dec q s fs o)) = List.length fs.
Proof.
  induction fs as [|f fs IH]; intros [|v o] L; try discriminate L; cbn; [reflexivity|].
  destruct (find dec q s f); cbn; auto.
Qed.

Lemma set_ok : forall s fs o, List.length o = List.length fs -> snd (set_fields dec q s fs o) = true ->
  forall i f v, nth_error fs i = Some f -> nth_error o i = Some v ->
  find dec q s f <> Bad /\
  nth_error (fst (set_fields dec q s fs o)) i = Some (match find dec q s f with Good v' => v' | _ => v end).
Proof.
  induction fs as [|g fs IH]; intros [|w o] L K i f v F V; try discriminate L; [destruct i; discriminate F|].
  cbn in K |- *. injection L as L. destruct i as [|i]; cbn in F, V.
  - injection F as ->. injection V as ->. destruct (find dec q s f); cbn in K |- *; try discriminate K; auto; split; congruence.
  - destruct (find dec q s g); cbn in K |- *; try discriminate K; eauto.
Qed.

Lemma set_fail : forall s fs o, List.length o = List.length fs -> snd (set_fields dec q s fs o) = false ->
  exists i f v, nth_error fs i = Some f /\ nth_error o i = Some v /\ find dec q s f = Bad /\
                nth_error (fst (set_fields dec q s fs o)) i = Some v.
Proof.
  induction fs as [|g fs IH]; intros [|w o] L K; try discriminate L; [discriminate K|].
  cbn in K |- *. injection L as L. destruct (find dec q s g) eqn:E; cbn in K |- *.
  - destruct (IH o L K) as (i & f & v & A & B & C & D). exists (S i), f, v. cbn. auto.
  - exists 0%nat, g, w. cbn. auto.
  - destruct (IH o L K) as (i & f & v' & A & B & C & D). exists (S i), f, v'. cbn. auto.
Qed.

Lemma set_absent : forall s fs o i f v, List.length o = List.length fs ->
  nth_error fs i = Some f -> nth_error o i = Some v -> find dec q s f = Absent ->
  nth_error (fst (set_fields dec q s fs o)) i = Some v.
Proof.
  induction fs as [|g fs IH]; intros [|w o] i f v L F V A; try discriminate L; [destruct i; discriminate F|].
  injection L as L. cbn. destruct i as [|i]; cbn in F, V.
  - injection F as ->. injection V as ->. rewrite A. reflexivity.
  - destruct (find dec q s g); cbn; eauto.
Qed.

Lemma set_fine : forall s fs o, (forall f, In f fs -> find dec q s f <> Bad) ->
  snd (set_fields dec q s fs o) = true.
Proof.
  induction fs as [|f fs IH]; intros [|v o] G; cbn; try reflexivity.
  pose proof (G f (or_introl eq_refl)). destruct (find dec q s f); cbn; [|congruence|]; apply IH; intros g I; apply G; now right.
Qed.

Lemma validate_iff : forall fs o, List.length o = List.length fs ->
  (validate fs o = true <-> forall i f v, nth_error fs i = Some f -> nth_error o i = Some v -> obeys (f_rule f) v = true).
Proof.
  induction fs as [|f fs IH]; intros [|v o] L; try discriminate L; cbn.
  - split; [intros _ [|i] g w G; discriminate G|reflexivity].
  - injection L as L. rewrite andb_true_iff, (IH o L). split.
    + intros [A B] [|i] g w G W; cbn in G, W; [congruence|eauto].
    + intros H. split; [apply (H 0%nat f v eq_refl eq_refl)|]. intros i g w G W. apply (H (S i) g w G W).
Qed.

(** ** All passes, fields with tags *)

Context (fs : list field) (src : field -> source) (All : list source).
Hypothesis src_of : forall f, In f fs -> src f <> Json /\ forall s, In s All -> s <> src f -> find dec q s f = Absent.

(** The value a field ends up with. *)
Definition final (f : field) : value := match find dec q (src f) f with Good v => v | _ => zero (f_kind f) end.

Definition zeros : list value := map (fun f => zero (f_kind f)) fs.

Record inv (done : list source) (o : list value) : Prop := {
  i_len : List.length o = List.length fs;
  i_rest : forall i f, nth_error fs i = Some f -> ~ In (src f) done -> nth_error o i = Some (zero (f_kind f));
  i_done :
    (forall i f, nth_error fs i = Some f -> In (src f) done -> find dec q (src f) f <> Bad /\ nth_error o i = Some (final f)) \/
    (exists i f, nth_error fs i = Some f /\ In (src f) done /\ find dec q (src f) f = Bad /\ nth_error o i = Some (zero (f_kind f))) }.

Lemma nth_some : forall {A B} (l : list A) (m : list B) i x, List.length m = List.length l -> nth_error l i = Some x ->
  exists y, nth_error m i = Some y.
Proof.
  intros A B l m i x L E. destruct (nth_error m i) as [y|] eqn:M; [eauto|].
  apply nth_error_None in M. assert (nth_error l i <> None) as H by congruence. apply nth_error_Some in H. lia.
Qed.

Lemma inv_step : forall done o s, In s All -> s <> Json -> ~ In s done -> inv done o ->
  inv (done ++ [s]) (fst (set_fields dec q s fs o)) /\
  (snd (set_fields dec q s fs o) = true \/
   exists i f, nth_error fs i = Some f /\ src f = s /\ find dec q s f = Bad).
Proof.
  intros done o s SA NJ ND I. destruct I as [L R D].
  assert (other : forall i f v, nth_error fs i = Some f -> nth_error o i = Some v -> src f <> s ->
    nth_error (fst (set_fields dec q s fs o)) i = Some v).
  { intros i f v F V N. apply (set_absent s fs o i f v L F V).
    apply nth_error_In in F. apply (src_of f F); [exact SA|congruence]. }
  destruct (snd (set_fields dec q s fs o)) eqn:K.
  - split; [|now left]. split.
    + now apply set_length.
    + intros i f F N. rewrite in_app_iff in N. apply (other i f); [exact F|apply R; [exact F|tauto]|].
      intros E. apply N. right. now left.
    + destruct D as [D|D].
      * left. intros i f F J. apply in_app_iff in J as [J|[Y|[]]].
        -- destruct (D i f F J) as [B E]. split; [exact B|]. apply (other i f); auto. congruence.
        -- rewrite Y in *. pose proof (R i f F ND) as Z. destruct (set_ok _ fs o L K i f _ F Z) as [B E].
           split; [exact B|]. rewrite E. unfold final. destruct (find dec q (src f) f); congruence.
      * right. destruct D as (i & f & F & J & B & Z). exists i, f. split; [exact F|]. split; [apply in_app_iff; now left|].
        split; [exact B|]. apply (other i f); auto. congruence.
  - destruct (set_fail s fs o L K) as (i & f & v & F & V & B & E).
    assert (src f = s) as S.
    { destruct (source_dec (src f) s) as [Y|N]; [exact Y|].
      pose proof (nth_error_In _ _ F) as J. destruct (src_of f J) as [_ A]. rewrite (A s SA) in B by congruence. discriminate. }
    split; [|right; eauto]. split.
    + now apply set_length.
    + intros j g G N. rewrite in_app_iff in N. apply (other j g); [exact G|apply R; [exact G|tauto]|].
      intros Y. apply N. right. now left.
    + right. exists i, f. split; [exact F|]. split; [apply in_app_iff; right; now left|]. rewrite S. split; [exact B|].
      rewrite E. rewrite <- V. apply R; [exact F|congruence].
Qed.

Lemma inv_start : inv [] zeros.
Proof.
  split.
  - unfold zeros. apply map_length.
  - intros i f F _. unfold zeros. rewrite nth_error_map, F. reflexivity.
  - left. intros i f _ [].
Qed.

Lemma bind_snoc_src : forall fs' ss s o, bind_all dec fs' q (ss ++ [s]) o = pass dec fs' q s (fst (bind_all dec fs' q ss o)).
Proof. intros fs' ss s o. unfold bind_all. rewrite fold_left_app. reflexivity. Qed.

Lemma inv_all : forall ss, incl ss All -> NoDup ss -> ~ In Json ss -> inv ss (fst (bind_all dec fs q ss zeros)).
Proof.
  induction ss as [|s ss IH] using rev_ind; intros IN ND NJ; [exact inv_start|].
  rewrite bind_snoc_src. apply NoDup_remove in ND as [ND NI]. rewrite app_nil_r in ND, NI.
  rewrite in_app_iff in NJ. cbn in NJ.
  assert (s <> Json) as SJ by tauto. assert (~ In Json ss) as SSJ by tauto.
  apply incl_app_inv in IN as [IN1 IN2].
  destruct (inv_step ss (fst (bind_all dec fs q ss zeros)) s (IN2 s (or_introl eq_refl)) SJ NI (IH IN1 ND SSJ)) as [A _].
  unfold pass. destruct s; [exact A|exact A|exact A|congruence].
Qed.

Lemma all_accept : forall ss s, incl (ss ++ [s]) All -> NoDup (ss ++ [s]) -> ~ In Json (ss ++ [s]) ->
  (forall f, In f fs -> In (src f) (ss ++ [s])) ->
  (forall f, In f fs -> find dec q (src f) f <> Bad) ->
  (forall i f, nth_error fs i = Some f -> nth_error (fst (bind_all dec fs q (ss ++ [s]) zeros)) i = Some (final f)) /\
  (snd (bind_all dec fs q (ss ++ [s]) zeros) = true <-> forall f, In f fs -> obeys (f_rule f) (final f) = true).
Proof.
  intros ss s IN ND NJ SRC G.
  pose proof (inv_all (ss ++ [s]) IN ND NJ) as I. destruct I as [L _ D].
  assert (forall i f, nth_error fs i = Some f -> nth_error (fst (bind_all dec fs q (ss ++ [s]) zeros)) i = Some (final f)) as V.
  { intros i f F. destruct D as [D|(j & g & J & _ & B & _)]; [apply D; [exact F|apply SRC; eapply nth_error_In; eauto]|].
    exfalso. apply (G g); [eapply nth_error_In; eauto|exact B]. }
  split; [exact V|]. rewrite bind_snoc_src in *. unfold pass in *. cbn [fst snd] in *.
  assert (s <> Json) as SJ by (rewrite in_app_iff in NJ; cbn in NJ; tauto).
  set (o := fst (bind_all dec fs q ss zeros)) in *.
  assert (snd (match s with Json => match q_json q with Some j => json_fields j fs o | None => (o, false) end | _ => set_fields dec q s fs o end) = true) as K.
  { assert (snd (set_fields dec q s fs o) = true); [|destruct s; congruence].
    apply set_fine. intros f F. destruct (source_dec s (src f)) as [->|N]; [now apply G|].
    destruct (src_of f F) as [_ A]. rewrite (A s); [discriminate|apply IN, in_app_iff; right; now left|exact N]. }
  rewrite K. cbn [andb]. rewrite (validate_iff fs _ L). split.
  - intros H f F. apply In_nth_error in F as [i F]. apply (H i f); auto.
  - intros H i f v F W. rewrite (V i f F) in W. injection W as <-. apply H. eapply nth_error_In; eauto.
Qed.

Lemma accept_good : forall ss s, incl (ss ++ [s]) All -> NoDup (ss ++ [s]) -> ~ In Json (ss ++ [s]) ->
  (forall f, In f fs -> In (src f) (ss ++ [s])) ->
  (forall f, In f fs -> src f <> s -> find dec q (src f) f = Bad -> obeys (f_rule f) (zero (f_kind f)) = false) ->
  snd (bind_all dec fs q (ss ++ [s]) zeros) = true -> forall f, In f fs -> find dec q (src f) f <> Bad.
Proof.
  intros ss s IN ND NJ SRC GU OK.
  pose proof (inv_all (ss ++ [s]) IN ND NJ) as I. destruct I as [L _ D].
  destruct D as [D|(j & g & J & _ & B & Z)].
  - intros f F. apply In_nth_error in F as [i F]. apply (D i f F). apply SRC. eapply nth_error_In; eauto.
  - exfalso. rewrite bind_snoc_src in *. unfold pass in *. cbn [fst snd] in *. apply andb_true_iff in OK as [K V].
    assert (s <> Json) as SJ by (rewrite in_app_iff in NJ; cbn in NJ; tauto).
    destruct (source_dec (src g) s) as [Y|N].
    + assert (List.length (fst (bind_all dec fs q ss zeros)) = List.length fs) as LL.
      { apply NoDup_remove in ND as [ND _]. rewrite app_nil_r in ND.
        apply incl_app_inv in IN as [IN _]. apply (inv_all ss IN ND). rewrite in_app_iff in NJ. tauto. }
      assert (snd (set_fields dec q s fs (fst (bind_all dec fs q ss zeros))) = true) as K' by (destruct s; congruence).
      destruct (nth_some fs (fst (bind_all dec fs q ss zeros)) j g LL J) as [y Y'].
      destruct (set_ok s fs _ LL K' j g y J Y') as [NB _]. congruence.
    + rewrite (validate_iff fs _ L) in V. pose proof (V j g _ J Z) as V'.
      rewrite (GU g) in V'; [discriminate|eapply nth_error_In; eauto|exact N|exact B].
Qed.
End Pass.

(** ** Fields without tags at the end *)

Lemma set_app : forall dec q s us fs o w, List.length o = List.length fs -> List.length w = List.length us ->
  exists w', List.length w' = List.length us /\
    fst (set_fields dec q s (fs ++ us) (o ++ w)) = fst (set_fields dec q s fs o) ++ w' /\
    (snd (set_fields dec q s (fs ++ us) (o ++ w)) = true -> snd (set_fields dec q s fs o) = true) /\
    ((forall f, In f us -> find dec q s f = Absent) ->
     snd (set_fields dec q s (fs ++ us) (o ++ w)) = snd (set_fields dec q s fs o)).
Proof.
  intros dec q s us. induction fs as [|f fs IH]; intros [|v o] w L W; try discriminate L.
  - cbn. exists (fst (set_fields dec q s us w)). repeat split; auto.
    + now apply set_length.
    + intros A. apply set_fine. intros f F. rewrite (A f F). discriminate.
  - injection L as L. cbn. destruct (IH o w L W) as (w' & A & B & C & D).
    destruct (find dec q s f); cbn.
    + exists w'. rewrite B. auto.
    + exists w. auto.
    + exists w'. rewrite B. auto.
Qed.

Lemma validate_app : forall us fs o w, List.length o = List.length fs -> List.length w = List.length us ->
  (forall f, In f us -> f_rule f = Any) -> validate (fs ++ us) (o ++ w) = validate fs o.
Proof.
  intros us. induction fs as [|f fs IH]; intros [|v o] w L W A; try discriminate L; cbn.
  - apply (validate_iff us w W). intros i f v F _. rewrite (A f (nth_error_In _ _ F)). reflexivity.
  - injection L as L. rewrite (IH o w L W A). reflexivity.
Qed.

Lemma pass_app : forall dec q s us fs o w, s <> Json -> List.length o = List.length fs -> List.length w = List.length us ->
  (forall f, In f us -> f_rule f = Any) ->
  exists w', List.length w' = List.length us /\
    fst (pass dec (fs ++ us) q s (o ++ w)) = fst (pass dec fs q s o) ++ w' /\
    ((forall f, In f us -> find dec q s f = Absent) ->
     snd (pass dec (fs ++ us) q s (o ++ w)) = snd (pass dec fs q s o)).
Proof.
  intros dec q s us fs o w NJ L W A. destruct (set_app dec q s us fs o w L W) as (w' & W' & F & _ & S).
  exists w'. split; [exact W'|].
  assert (validate (fs ++ us) (fst (set_fields dec q s (fs ++ us) (o ++ w))) = validate fs (fst (set_fields dec q s fs o))) as V.
  { rewrite F. apply validate_app; [now apply set_length|exact W'|exact A]. }
  unfold pass. cbn [fst snd]. destruct s; try congruence; (split; [exact F|]); intros AB; rewrite V, (S AB); reflexivity.
Qed.

Lemma bind_length : forall dec q fs ss o, ~ In Json ss -> List.length o = List.length fs ->
  List.length (fst (bind_all dec fs q ss o)) = List.length fs.
Proof.
  intros dec q fs. induction ss as [|s ss IH] using rev_ind; intros o NJ L; [exact L|].
  rewrite bind_snoc_src. rewrite in_app_iff in NJ. cbn in NJ. assert (~ In Json ss) as NJ' by tauto.
  pose proof (IH o NJ' L) as L'. unfold pass. destruct s; cbn [fst]; try (now apply set_length). tauto.
Qed.

Lemma bind_app : forall dec q us fs ss s, ~ In Json (ss ++ [s]) -> (forall f, In f us -> f_rule f = Any) ->
  (forall f, In f us -> find dec q s f = Absent) ->
  forall o w, List.length o = List.length fs -> List.length w = List.length us ->
  exists w', List.length w' = List.length us /\
    fst (bind_all dec (fs ++ us) q (ss ++ [s]) (o ++ w)) = fst (bind_all dec fs q (ss ++ [s]) o) ++ w' /\
    snd (bind_all dec (fs ++ us) q (ss ++ [s]) (o ++ w)) = snd (bind_all dec fs q (ss ++ [s]) o).
Proof.
  intros dec q us fs ss s NJ A AB o w L W.
  assert (~ In Json ss /\ s <> Json) as [NJ1 NJ2] by (rewrite in_app_iff in NJ; cbn in NJ; split; [tauto|congruence || (intros E; apply NJ; auto)]).
  assert (exists w', List.length w' = List.length us /\
    fst (bind_all dec (fs ++ us) q ss (o ++ w)) = fst (bind_all dec fs q ss o) ++ w') as (w1 & L1 & F1).
  { clear NJ AB. induction ss as [|s' ss IH] using rev_ind; [exists w; auto|].
    rewrite in_app_iff in NJ1. cbn in NJ1. destruct IH as (w1 & L1 & F1); [tauto|].
    rewrite !bind_snoc_src, F1.
    destruct (pass_app dec q s' us fs (fst (bind_all dec fs q ss o)) w1) as (w2 & L2 & F2 & _); eauto.
    apply bind_length; [tauto|exact L]. }
  rewrite !bind_snoc_src, F1.
  destruct (pass_app dec q s us fs (fst (bind_all dec fs q ss o)) w1 NJ2) as (w2 & L2 & F2 & S2); auto.
  - now apply bind_length.
  - exists w2. auto.
Qed.

(** ** Structures *)

Definition tagged (f : field) : bool :=
  match f_uri f, f_form f, f_header f, f_json f with None, None, None, None => false | _, _, _, _ => true end.
Definition src (f : field) : source :=
  match f_uri f, f_form f with Some _, _ => Uri | _, Some _ => Query | _, _ => Header end.
Definition source_eqb (a b : source) : bool := if source_dec a b then true else false.
Definition one_tag (f : field) : bool :=
  match f_uri f, f_form f, f_header f, f_json f with
  | Some _, None, None, None | None, Some _, None, None | None, None, Some _, None => true
  | _, _, _, _ => false
  end.
Definition is_any (r : rule) : bool := match r with Any => true | _ => false end.
Fixpoint nodupb (l : list source) : bool :=
  match l with [] => true | s :: l' => negb (existsb (source_eqb s) l') && nodupb l' end.

Definition shapedb (b : binder) : bool :=
  forallb (fun f => if tagged f then one_tag f && plain (f_kind f) && existsb (source_eqb (src f)) (b_srcs b)
                    else is_any (f_rule f)) (b_fields b)
  && nodupb (b_srcs b) && negb (existsb (source_eqb Json) (b_srcs b)) && negb (match b_srcs b with [] => true | _ => false end).
Definition guardedb (b : binder) : bool :=
  forallb (fun f => negb (tagged f) || match f_kind f with KText => true | _ => false end
                    || source_eqb (src f) (last_src b) || negb (obeys (f_rule f) (zero (f_kind f)))) (b_fields b).

Lemma existsb_src : forall s l, existsb (source_eqb s) l = true <-> In s l.
Proof.
  intros s l. rewrite existsb_exists. unfold source_eqb. split.
  - intros (x & I & E). destruct (source_dec s x); [congruence|discriminate].
  - intros I. exists s. split; [exact I|]. destruct (source_dec s s); [reflexivity|congruence].
Qed.

Lemma nodupb_iff : forall l, nodupb l = true -> NoDup l.
Proof.
  induction l as [|s l IH]; cbn; intros H; constructor.
  - apply andb_true_iff in H as [H _]. rewrite <- existsb_src. destruct (existsb (source_eqb s) l); [discriminate|congruence].
  - apply IH. now apply andb_true_iff in H as [_ H].
Qed.

Lemma tagged_iff : forall f, tagged f = true <-> declared f.
Proof.
  intros f. unfold tagged, declared. split.
  - destruct (f_uri f) as [t|] eqn:U; [intros _; now exists Uri, t|].
    destruct (f_form f) as [t|] eqn:F; [intros _; now exists Query, t|].
    destruct (f_header f) as [t|] eqn:H; [intros _; now exists Header, t|].
    destruct (f_json f) as [t|] eqn:J; [intros _; now exists Json, t|discriminate].
  - intros (s & t & T). destruct s; cbn in T; rewrite T; destruct (f_uri f), (f_form f), (f_header f); reflexivity.
Qed.

Lemma one_tag_src : forall f, one_tag f = true -> src f <> Json /\ (exists t, tag (src f) f = Some t) /\
  forall s, s <> src f -> tag s f = None.
Proof.
  intros f O. unfold one_tag, src in *.
  destruct (f_uri f) as [t1|] eqn:U, (f_form f) as [t2|] eqn:F, (f_header f) as [t3|] eqn:H, (f_json f) as [t4|] eqn:J; try discriminate O;
    (split; [discriminate|]); (split; [eexists; cbn; eauto|]); intros [] N; cbn; congruence.
Qed.

Lemma find_absent : forall dec q s f, look q s (key_of s f) = [] ->
  (forall inner k, f_kind f = KStruct inner -> In k inner -> look q s k = []) -> find dec q s f = Absent.
Proof.
  intros dec q s f A B. unfold find. rewrite A. destruct (f_kind f) as [| | | |inner|] eqn:K; try reflexivity.
  assert (List.concat (map (look q s) inner) = []) as E; [|rewrite E; reflexivity].
  pose proof (B inner) as B'. clear -B'. induction inner as [|k inner IH]; [reflexivity|]. cbn.
  rewrite (B' k eq_refl (or_introl eq_refl)). cbn. apply IH. intros k' _ I.
  apply B'; [reflexivity|now right].
Qed.

(** ** Main results *)

Record shaped (b : binder) (fs us : list field) (ss : list source) (s : source) : Prop := {
  sh_fields : b_fields b = fs ++ us;
  sh_srcs : b_srcs b = ss ++ [s];
  sh_tagged : forall f, In f fs -> one_tag f = true /\ plain (f_kind f) = true /\ In (src f) (ss ++ [s]) /\ declared f;
  sh_rest : forall f, In f us -> f_rule f = Any /\ ~ declared f;
  sh_nodup : NoDup (ss ++ [s]);
  sh_json : ~ In Json (ss ++ [s]) }.

Lemma last_app : forall {A} (l : list A) x d, last (l ++ [x]) d = x.
Proof. intros A l x d. induction l as [|y l IH]; [reflexivity|]. cbn. rewrite IH. destruct (l ++ [x]) eqn:E; [now destruct l|reflexivity]. Qed.

Lemma shapedb_shaped : forall b, b_fields b = filter tagged (b_fields b) ++ filter (fun f => negb (tagged f)) (b_fields b) ->
  shapedb b = true ->
  shaped b (filter tagged (b_fields b)) (filter (fun f => negb (tagged f)) (b_fields b)) (removelast (b_srcs b)) (last_src b).
Proof.
  intros b F S. unfold shapedb in S. rewrite !andb_true_iff in S. destruct S as [[[A N] J] E].
  assert (b_srcs b <> []) as NE by (destruct (b_srcs b); [discriminate E|congruence]).
  pose proof (app_removelast_last Uri NE) as R. rewrite forallb_forall in A.
  split; auto; unfold last_src; try rewrite <- R.
  - intros f I. apply filter_In in I as [I T]. pose proof (A f I) as A'. rewrite T in A'. rewrite !andb_true_iff in A'.
    destruct A' as [[A1 A2] A3]. repeat split; auto; [now apply existsb_src|now apply tagged_iff].
  - intros f I. apply filter_In in I as [I T]. pose proof (A f I) as A'. rewrite <- tagged_iff.
    destruct (tagged f); [discriminate T|]. destruct (f_rule f); try discriminate A'. split; [reflexivity|discriminate].
  - now apply nodupb_iff.
  - rewrite <- existsb_src. destruct (existsb (source_eqb Json) (b_srcs b)); [discriminate J|discriminate].
Qed.

Section Main.
Context (dec : str -> bool) (b : binder) (q : request) (fs us : list field) (ss : list source) (s : source).
Context (Sh : shaped b fs us ss s) (Cl : clean b q).

Lemma last_is : last_src b = s.
Proof. unfold last_src. rewrite (sh_srcs _ _ _ _ _ Sh). apply last_app. Qed.

Lemma key_untagged : forall s' f, tag s' f = None -> key_of s' f = f_go f.
Proof. intros s' f T. unfold key_of. rewrite T. reflexivity. Qed.

Lemma src_ok : forall f, In f fs -> src f <> Json /\ forall s', In s' (ss ++ [s]) -> s' <> src f -> find dec q s' f = Absent.
Proof.
  intros f F. destruct (sh_tagged _ _ _ _ _ Sh f F) as (O & _ & _ & D). destruct (one_tag_src f O) as (NJ & _ & T).
  split; [exact NJ|]. intros s' I N. destruct (Cl s' f) as [A B].
  - rewrite (sh_srcs _ _ _ _ _ Sh). exact I.
  - rewrite (sh_fields _ _ _ _ _ Sh). apply in_app_iff. now left.
  - now apply T.
  - now left.
  - apply find_absent; [|exact B]. rewrite key_untagged by (now apply T). exact A.
Qed.

Lemma rest_ok : forall f, In f us -> find dec q s f = Absent.
Proof.
  intros f F. destruct (sh_rest _ _ _ _ _ Sh f F) as [_ ND].
  assert (tag s f = None) as T by (destruct (tag s f) as [t|] eqn:E; [exfalso; apply ND; now exists s, t|reflexivity]).
  destruct (Cl s f) as [A B].
  - rewrite (sh_srcs _ _ _ _ _ Sh). apply in_app_iff. right. now left.
  - rewrite (sh_fields _ _ _ _ _ Sh). apply in_app_iff. now right.
  - exact T.
  - right. symmetry. exact last_is.
  - apply find_absent; [|exact B]. rewrite key_untagged by exact T. exact A.
Qed.

Lemma bind_parts : exists w, List.length w = List.length us /\
  fst (bind dec b q) = fst (bind_all dec fs q (ss ++ [s]) (zeros fs)) ++ w /\
  snd (bind dec b q) = snd (bind_all dec fs q (ss ++ [s]) (zeros fs)).
Proof.
  unfold bind. rewrite (sh_fields _ _ _ _ _ Sh), (sh_srcs _ _ _ _ _ Sh), map_app.
  apply bind_app.
  - exact (sh_json _ _ _ _ _ Sh).
  - intros f F. apply (sh_rest _ _ _ _ _ Sh f F).
  - exact rest_ok.
  - apply map_length.
  - apply map_length.
Qed.

Lemma meant_find : forall f v, In f fs -> (meant q f v <-> find dec q (src f) f <> Bad /\ v = final dec q src f).
Proof.
  intros f v F. destruct (sh_tagged _ _ _ _ _ Sh f F) as (O & P & _ & _). destruct (one_tag_src f O) as (NJ & (t & T) & U).
  assert (key_of (src f) f = t) as K by (unfold key_of; rewrite T; reflexivity).
  assert (forall inner, f_kind f <> KStruct inner) as NS by (intros inner E; rewrite E in P; discriminate P).
  unfold final, find. rewrite K. split.
  - intros M. inversion M as [s' t' T' A|s' t' x r v' T' A W]; subst.
    + assert (s' = src f) as ->. { destruct (source_dec s' (src f)) as [E|N]; [exact E|]. rewrite (U s' N) in T'. discriminate. }
      rewrite T in T'. injection T' as <-. rewrite A. destruct (f_kind f); try (split; [discriminate|reflexivity]). now destruct (NS inner).
    + assert (s' = src f) as ->. { destruct (source_dec s' (src f)) as [E|N]; [exact E|]. rewrite (U s' N) in T'. discriminate. }
      rewrite T in T'. injection T' as <-. rewrite A. apply (convert_iff dec _ _ r _ P) in W. rewrite W. split; [discriminate|reflexivity].
  - intros [NB ->]. destruct (look q (src f) t) as [|x r] eqn:L.
    + assert (match f_kind f with
             | KStruct inner => match List.concat (map (look q (src f)) inner) with [] => Absent | _ :: _ => if forallb dec (List.concat (map (look q (src f)) inner)) then Good (VList (List.concat (map (look q (src f)) inner))) else Bad end
             | _ => Absent end = Absent) as AB by (destruct (f_kind f); try reflexivity; now destruct (NS inner)).
      destruct (f_kind f) eqn:KK; try (rewrite <- KK; now apply (M_absent q f (src f) t)). now destruct (NS inner).
    + destruct (convert dec (f_kind f) (x :: r)) as [v|] eqn:C; [|congruence].
      apply (M_given q f (src f) t x r v T L). now apply (convert_iff dec _ _ r _ P).
Qed.

Lemma well_formed_find : well_formed b q <->
  forall f, In f fs -> find dec q (src f) f <> Bad /\ obeys (f_rule f) (final dec q src f) = true.
Proof.
  unfold well_formed. rewrite (sh_fields _ _ _ _ _ Sh). split.
  - intros W f F. destruct (W f) as (v & M & L); [apply in_app_iff; now left|apply (sh_tagged _ _ _ _ _ Sh f F)|].
    apply (meant_find f v F) in M as [B ->]. split; [exact B|now apply obeys_iff].
  - intros W f F D. apply in_app_iff in F as [F|F]; [|now apply (sh_rest _ _ _ _ _ Sh f F) in D].
    destruct (W f F) as [B O]. exists (final dec q src f). split; [now apply meant_find|now apply obeys_iff].
Qed.

Lemma well_formed_bound : well_formed b q ->
  snd (bind dec b q) = true /\
  forall i f v, nth_error (b_fields b) i = Some f -> declared f -> meant q f v -> nth_error (fst (bind dec b q)) i = Some v.
Proof.
  intros W. rewrite well_formed_find in W. destruct bind_parts as (w & LW & F & S).
  destruct (all_accept dec q fs src (ss ++ [s]) src_ok ss s (incl_refl _)) as [V A].
  - exact (sh_nodup _ _ _ _ _ Sh).
  - exact (sh_json _ _ _ _ _ Sh).
  - intros f I. apply (sh_tagged _ _ _ _ _ Sh f I).
  - intros f I. apply (W f I).
  - split.
    + rewrite S. apply A. intros f I. apply (W f I).
    + intros i f v E D M. rewrite (sh_fields _ _ _ _ _ Sh) in E. rewrite F.
      assert (List.length (fst (bind_all dec fs q (ss ++ [s]) (zeros fs))) = List.length fs) as L.
      { apply bind_length; [exact (sh_json _ _ _ _ _ Sh)|apply map_length]. }
      destruct (Nat.lt_ge_cases i (List.length fs)) as [LT|GE].
      * rewrite nth_error_app1 in E by exact LT. rewrite nth_error_app1 by lia.
        rewrite (V i f E). apply meant_find in M as [_ ->]; [reflexivity|eapply nth_error_In; eauto].
      * rewrite nth_error_app2 in E by exact GE. apply nth_error_In in E. now apply (sh_rest _ _ _ _ _ Sh f E) in D.
Qed.

Lemma accepted_well_formed : guardedb b = true -> snd (bind dec b q) = true -> well_formed b q.
Proof.
  intros G A. destruct bind_parts as (w & LW & F & S). rewrite S in A. rewrite well_formed_find.
  unfold guardedb in G. rewrite forallb_forall in G. rewrite last_is in G.
  assert (forall f, In f fs -> find dec q (src f) f <> Bad) as NB.
  { apply (accept_good dec q fs src (ss ++ [s]) src_ok ss s (incl_refl _)); auto.
    - exact (sh_nodup _ _ _ _ _ Sh).
    - exact (sh_json _ _ _ _ _ Sh).
    - intros f I. apply (sh_tagged _ _ _ _ _ Sh f I).
    - intros f I N B. pose proof (G f) as G'. rewrite (sh_fields _ _ _ _ _ Sh) in G'.
      destruct (sh_tagged _ _ _ _ _ Sh f I) as (O & P & _ & D). apply tagged_iff in D. rewrite D in G'. cbn [negb orb] in G'.
      rewrite !orb_true_iff in G'. destruct G' as [[K|K]|K].
      + apply in_app_iff. now left.
      + exfalso. destruct (f_kind f) eqn:KK; try discriminate K. unfold find in B. rewrite KK in B.
        destruct (look q (src f) (key_of (src f) f)); cbn in B; discriminate B.
      + unfold source_eqb in K. destruct (source_dec (src f) s); [congruence|discriminate K].
      + now apply negb_true_iff in K. }
  intros f I. split; [now apply NB|].
  destruct (all_accept dec q fs src (ss ++ [s]) src_ok ss s (incl_refl _)) as [_ A'].
  - exact (sh_nodup _ _ _ _ _ Sh).
  - exact (sh_json _ _ _ _ _ Sh).
  - intros g J. apply (sh_tagged _ _ _ _ _ Sh g J).
  - exact NB.
  - now apply A'.
Qed.
End Main.

(** ** The rules hold of whatever is accepted *)

Lemma json_length : forall j fs o, List.length o = List.length fs -> List.length (fst (json_fields j fs o)) = List.length fs.
Proof. intros j. induction fs as [|f fs IH]; intros [|v o] L; try discriminate L; cbn; [reflexivity|]. injection L as L. now rewrite IH. Qed.

Lemma pass_length : forall dec fs q s o, List.length o = List.length fs -> List.length (fst (pass dec fs q s o)) = List.length fs.
Proof.
  intros dec fs q s o L. unfold pass. cbn [fst]. destruct s; try (now apply set_length).
  destruct (q_json q); [now apply json_length|exact L].
Qed.

Lemma all_length : forall dec fs q ss o, List.length o = List.length fs -> List.length (fst (bind_all dec fs q ss o)) = List.length fs.
Proof.
  intros dec fs q. induction ss as [|s ss IH] using rev_ind; intros o L; [exact L|].
  rewrite bind_snoc_src. apply pass_length. now apply IH.
Qed.

Lemma rules_hold : forall dec b q, b_srcs b <> [] -> snd (bind dec b q) = true ->
  forall i f v, nth_error (b_fields b) i = Some f -> nth_error (fst (bind dec b q)) i = Some v -> lawful (f_rule f) v.
Proof.
  intros dec b q NE A i f v F V. apply obeys_iff. unfold bind in *.
  rewrite (app_removelast_last Uri NE) in A, V. rewrite bind_snoc_src in A, V.
  assert (List.length (map (fun f => zero (f_kind f)) (b_fields b)) = List.length (b_fields b)) as L by apply map_length.
  apply (all_length dec _ q (removelast (b_srcs b))) in L.
  apply (pass_length dec (b_fields b) q (last (b_srcs b) Uri)) in L.
  unfold pass in A. cbn [snd] in A. apply andb_true_iff in A as [_ A].
  eapply validate_iff in A; eauto.
Qed.
