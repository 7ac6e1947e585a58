(** C78: what the clients send is what the line asks for. *)
From Coq Require Import String.
From Verif Require Import Base Lists Cstr_Model Util_Spec Util_Proofs Flow2_Proofs Remote_Model Remote_Spec Remote_Proofs Client_Model Client_Spec
  Opt_Model Opt_Spec Opt_Proofs FlowSet_Spec Opt2_Proofs.

Lemma options_ok k : table_ok (options_of k).
Proof. destruct k; apply table_okb; vm_compute; reflexivity. Qed.
Lemma options_small k : zlen (options_of k) <= 31.
Proof. apply options_ok. Qed.
Lemma no_default k o : In o (options_of k) -> p_default o = None.
Proof.
  intros I. assert (F : Forall (fun o => p_default o = None) (options_of k)) by (destruct k; repeat constructor). rewrite Forall_forall in F. auto.
Qed.

(** ** Values on the line *)
Lemma plain_value k its tail i v : Forall plain (line its tail) -> has_value (options_of k) its i (Some v) -> plain v.
Proof.
  intros P H. rewrite Forall_forall in P. destruct H as [(pre & it & post & E & G & _)|(_ & o & Z & D)].
  - assert (I : In it its) by (rewrite E, in_app_iff; cbn; auto).
    destruct it as [two a x|two a x|two a|w]; cbn [gives] in G; [| | |destruct G]; destruct G as (_ & G); inversion G; subst x.
    + assert (X := P (dashes two ++ a ++ 61 :: v) (item_words its tail _ _ I (or_introl eq_refl))).
      rewrite !plain_app in X. destruct X as (_ & _ & X). change (61 :: v) with ([61] ++ v) in X. rewrite plain_app in X. tauto.
    + apply P. eapply item_words; eauto. right. left. reflexivity.
  - exfalso. rewrite (no_default k o) in D by (eapply znth_In; eauto). discriminate.
Qed.
Lemma value_word k its tail i v : has_value (options_of k) its i (Some v) -> exists w, In w (line its tail) /\ zlen v <= zlen w.
Proof.
  intros H. destruct H as [(pre & it & post & E & G & _)|(_ & o & Z & D)].
  - assert (I : In it its) by (rewrite E, in_app_iff; cbn; auto).
    destruct it as [two a x|two a x|two a|w]; cbn [gives] in G; [| | |destruct G]; destruct G as (_ & G); inversion G; subst x.
    + exists (dashes two ++ a ++ 61 :: v). split; [eapply item_words; eauto; left; reflexivity|]. unfold zlen. rewrite !app_length. cbn [length]. lia.
    + exists v. split; [eapply item_words; eauto; right; left; reflexivity|]. unfold zlen. lia.
  - exfalso. rewrite (no_default k o) in D by (eapply znth_In; eauto). discriminate.
Qed.
Definition carriedb (words : list chars) : bool :=
  forallb (fun w => (zlen w <=? 1000) && forallb (fun c => negb (c =? 10) && negb (c =? 0)) w) words.
Lemma carried_small k its tail : carriedb (line its tail) = true -> carried k its tail.
Proof.
  intros H. unfold carriedb in H. rewrite forallb_forall in H. split.
  - apply Forall_forall. intros w I. specialize (H w I). apply andb_true_iff in H. destruct H as (_ & H). rewrite forallb_forall in H.
    split; intros X; specialize (H _ X); discriminate.
  - intros n v _ (i & o & _ & _ & V). destruct (value_word k its tail i v V) as (w & I & L). specialize (H w I). apply andb_true_iff in H. lia.
Qed.
Lemma line_plain k its tail n v : Forall plain (line its tail) -> line_value k its n v -> plain_opt v.
Proof.
  intros P [(i & o & Z & N & H)|(_ & ->)]; [|exact Logic.I]. destruct v as [v|]; [|exact Logic.I]. eapply plain_value; eauto.
Qed.
Lemma line_vals k its tail vals ws : Forall (item_ok (options_of k)) its -> parseOptions (options_of k) (line its tail) = Ok (Parsed vals ws) ->
  zlen vals = zlen (options_of k) /\
  (forall i o v, znth (options_of k) i = Some o -> znth vals i = Some v -> has_value (options_of k) its i v /\
     (p_req o = true -> takesArg o = true -> v <> None)).
Proof.
  intros F P. assert (T := options_ok k).
  assert (M : forall i, ~ missing (options_of k) its i). { intros i M. rewrite (line_missing _ its tail i T F M) in P. discriminate. }
  destruct (line_read _ its tail T F M) as (vals' & P' & L & V). rewrite P' in P. inversion P; subst vals'. clear P P'. split; [exact L|].
  intros i o v O Z. split; [auto|]. intros R TA ->. specialize (V i None Z). destruct V as [(pre & it & post & E & G & _)|(N & o' & O' & D)].
  - assert (K : item_ok (options_of k) it) by (rewrite Forall_forall in F; apply F; rewrite E, in_app_iff; cbn; auto).
    destruct it as [two a x|two a x|two a|w]; cbn [gives] in G; [| | |destruct G]; destruct G as (D & G); try discriminate.
    cbn [item_ok] in K. destruct K as (_ & j & o' & D' & Z' & FL & _). assert (j = i) by (eapply denotes_fun; eauto). subst j.
    rewrite O in Z'. inversion Z'; subst o'. apply flag_takes in FL. congruence.
  - apply (M i). exists o. auto.
Qed.

(** ** Requests *)
Lemma told_of k its l c :
  decoded l c -> given_value (str "action") l = Some (str (action_of k)) ->
  (forall f n, In (f, n) [("name", "name"); ("target", "target"); ("priority", "prio"); ("protocols", "protocols"); ("dports", "dports");
     ("sports", "sports"); ("dsts", "dsts"); ("srcs", "srcs"); ("match", "match"); ("udpencap", "udpencap")]%string ->
     line_value k its n (given_value (str f) l)) ->
  told k its c.
Proof.
  intros (D1 & D2 & D3 & D4 & D5 & D6 & D7 & D8 & D9 & D10 & D11) A H. unfold told. rewrite D1, D2, D3, D6, D7.
  split; [exact A|]. split; [apply H; cbn; tauto|]. split; [apply H; cbn; tauto|].
  split; [eexists; split; [apply (H "priority"%string); cbn; tauto|exact D4]|].
  split; [eexists; split; [apply (H "protocols"%string); cbn; tauto|exact D5]|].
  split; [apply H; cbn; tauto|]. split; [apply H; cbn; tauto|].
  split; [eexists; split; [apply (H "dsts"%string); cbn; tauto|exact D8]|].
  split; [eexists; split; [apply (H "srcs"%string); cbn; tauto|exact D9]|].
  split; [eexists; split; [apply (H "match"%string); cbn; tauto|exact D10]|].
  eexists; split; [apply (H "udpencap"%string); cbn; tauto|exact D11].
Qed.
Lemma line_at k its i o n v : znth (options_of k) i = Some o -> p_name o = str n -> has_value (options_of k) its i v -> line_value k its n v.
Proof. intros Z N H. left. exists i, o. auto. Qed.
Definition has_name (k : client) (n : string) : bool := existsb (streq (str n)) (map p_name (options_of k)).
Lemma line_not k its n : has_name k n = false -> line_value k its n None.
Proof.
  intros N. right. split; [|reflexivity]. intros I. unfold has_name in N. assert (X : existsb (streq (str n)) (map p_name (options_of k)) = true);
    [|congruence]. apply existsb_exists. exists (str n). split; [exact I|apply streq_refl].
Qed.
Lemma line_ok_short f v : plain v -> zlen v <= 1000 -> zlen f <= 20 -> line_ok f v.
Proof. intros (A & B) L F. unfold line_ok. split; auto. split; auto. lia. Qed.

(** A request with a name only *)
Definition name_request (k : client) (name : option chars) : list (chars * chars) :=
  (str "action", str (action_of k)) :: given_opt "name" name.
Lemma name_read k name rest : plain_opt name -> short_opt name ->
  exists c, readFlowCmd (request (name_request k name) ++ rest) = Ok (Some (c, rest)) /\ decoded (name_request k name) c.
Proof.
  intros P S. apply request_decoded.
  - unfold name_request. cbn [map fst]. rewrite given_opt_fst. destruct name; apply nodup_b; vm_compute; reflexivity.
  - unfold name_request. constructor.
    + split; [left; reflexivity|]. apply line_ok_short; cbn [fst snd]; [destruct k; split; vm_compute; intuition discriminate|destruct k; vm_compute; discriminate|vm_compute; discriminate].
    + destruct name as [v|]; cbn [given_opt]; constructor; [|constructor]. split; [right; left; reflexivity|]. apply line_ok_short; cbn [fst snd]; auto. vm_compute. discriminate.
Qed.
Lemma name_told k its name c : (forall n, In n ["target"; "prio"; "protocols"; "dports"; "sports"; "dsts"; "srcs"; "match"; "udpencap"]%string -> has_name k n = false) ->
  line_value k its "name" name -> decoded (name_request k name) c -> told k its c /\ c_name c = name.
Proof.
  intros N V D. assert (X : given_value (str "name") (name_request k name) = name).
  { unfold name_request. rewrite gv_cons by reflexivity. apply gv_last. }
  split; [|destruct D as (_ & D & _); congruence].
  apply told_of with (l := name_request k name); [exact D|reflexivity|]. intros f n I. cbn [In] in I.
  repeat (destruct I as [I|I]); [| | | | | | | | | |destruct I]; inversion I; subst f n; clear I.
  - rewrite X. exact V.
  - unfold name_request. rewrite gv_cons by reflexivity. rewrite gv_no by reflexivity. apply line_not, N. cbn. tauto.
  - unfold name_request. rewrite gv_cons by reflexivity. rewrite gv_no by reflexivity. apply line_not, N. cbn. tauto.
  - unfold name_request. rewrite gv_cons by reflexivity. rewrite gv_no by reflexivity. apply line_not, N. cbn. tauto.
  - unfold name_request. rewrite gv_cons by reflexivity. rewrite gv_no by reflexivity. apply line_not, N. cbn. tauto.
  - unfold name_request. rewrite gv_cons by reflexivity. rewrite gv_no by reflexivity. apply line_not, N. cbn. tauto.
  - unfold name_request. rewrite gv_cons by reflexivity. rewrite gv_no by reflexivity. apply line_not, N. cbn. tauto.
  - unfold name_request. rewrite gv_cons by reflexivity. rewrite gv_no by reflexivity. apply line_not, N. cbn. tauto.
  - unfold name_request. rewrite gv_cons by reflexivity. rewrite gv_no by reflexivity. apply line_not, N. cbn. tauto.
  - unfold name_request. rewrite gv_cons by reflexivity. rewrite gv_no by reflexivity. apply line_not, N. cbn. tauto.
Qed.
Definition listish (k : client) : Prop := match k with FlowSet | TraceSet => False | _ => True end.
Lemma no_others k n : listish k -> In n ["target"; "prio"; "protocols"; "dports"; "sports"; "dsts"; "srcs"; "match"; "udpencap"]%string -> has_name k n = false.
Proof.
  intros K I. cbn [In] in I. repeat (destruct I as [<-|I]; [destruct k; try destruct K; reflexivity|]). destruct I.
Qed.
Lemma request_name k name : field_line (str "action") (str (action_of k)) ++ opt_line (str "name") name ++ str "eoc:" ++ [10] = request (name_request k name).
Proof.
  unfold request, name_request, lines, field_line. cbn [map concat fst snd]. fold lines. destruct name as [v|]; cbn [given_opt opt_line map concat fst snd app].
  - unfold field_line. repeat rewrite <- app_assoc. cbn [app]. repeat rewrite <- app_assoc. reflexivity.
  - repeat rewrite <- app_assoc. cbn [app]. repeat rewrite <- app_assoc. reflexivity.
Qed.
Lemma name_sent k its tail name rest :
  listish k -> carried k its tail -> line_value k its "name" name ->
  exists c, readFlowCmd ((field_line (str "action") (str (action_of k)) ++ opt_line (str "name") name ++ str "eoc:" ++ [10]) ++ rest) = Ok (Some (c, rest)) /\
    told k its c /\ c_name c = name.
Proof.
  intros K (P & S) V. rewrite request_name. destruct (name_read k name rest) as (c & R & D).
  - eapply line_plain; eauto.
  - destruct name as [v|]; [|exact Logic.I]. destruct V as [V|(_ & V)]; [|discriminate]. apply (S "name"%string); [cbn; auto|exact V].
  - exists c. split; [exact R|]. apply name_told; auto. intros n. apply no_others. exact K.
Qed.

Ltac vals3 L := unfold zlen in L; cbn [options_of length nameOpts listOpts noOpts] in L.
Lemma list_told k its tail s rest : listish k -> Forall (item_ok (options_of k)) its -> carried k its tail -> sends k (line its tail) = Ok (Some s) ->
  exists c, readFlowCmd (s ++ rest) = Ok (Some (c, rest)) /\ told k its c /\ (names_one k -> c_name c <> None).
Proof.
  intros K F C S.
  assert (PT := parse_total (options_of k) (line its tail)). destruct PT as (r & R); [exact (options_small k)|].
  assert (Q : exists name, line_value k its "name" name /\ (names_one k -> name <> None) /\
    s = field_line (str "action") (str (action_of k)) ++ opt_line (str "name") name ++ str "eoc:" ++ [10]).
  { destruct k; try destruct K; cbn [sends] in S; unfold nameLine, listLine, plainLine in S; cbn [options_of] in R; rewrite R in S; cbn [obind] in S;
      destruct r as [| |vals ws]; try discriminate;
      match type of F with Forall (item_ok (options_of ?k)) _ => destruct (line_vals k its tail vals ws F R) as (L & V) end; vals3 L;
      (destruct vals as [|v0 [|v1 [|]]]; cbn [length] in L; try lia).
    all: try (assert (W := V 1 _ v1 eq_refl eq_refl); destruct W as (W & W2)).
    - destruct v1 as [name|]; [|destruct W2; reflexivity]. inversion S; subst s. exists (Some name). split; [eapply line_at; [| |exact W]; reflexivity|].
      split; [discriminate|reflexivity].
    - inversion S; subst s. exists v1. split; [eapply line_at; [| |exact W]; reflexivity|]. split; [|reflexivity]. intros [X|[X|[X|X]]]; discriminate.
    - inversion S; subst s. exists None. split; [apply line_not; reflexivity|]. split; [|reflexivity]. intros [X|[X|[X|X]]]; discriminate.
    - destruct v1 as [name|]; [|destruct W2; reflexivity]. inversion S; subst s. exists (Some name). split; [eapply line_at; [| |exact W]; reflexivity|].
      split; [discriminate|reflexivity].
    - inversion S; subst s. exists v1. split; [eapply line_at; [| |exact W]; reflexivity|]. split; [|reflexivity]. intros [X|[X|[X|X]]]; discriminate.
    - inversion S; subst s. exists None. split; [apply line_not; reflexivity|]. split; [|reflexivity]. intros [X|[X|[X|X]]]; discriminate. }
  destruct Q as (name & V & NN & ->). destruct (name_sent k its tail name rest K C V) as (c & RD & T & N). exists c. split; [exact RD|]. split; [exact T|].
  rewrite N. exact NN.
Qed.

(** ** flow-set *)
Lemma set_told its tail s rest : Forall (item_ok (options_of FlowSet)) its -> carried FlowSet its tail -> sends FlowSet (line its tail) = Ok (Some s) ->
  exists c, readFlowCmd (s ++ rest) = Ok (Some (c, rest)) /\ told FlowSet its c /\ c_name c <> None.
Proof.
  intros F C S. destruct (flow_set_line its tail s rest F C S) as (c & R & A1 & (A2n & A2) & (A3n & A3) & (v4 & A4 & E4) & (v5 & A5 & E5) & A6 & A7 & (v8 & A8 & E8) & (v9 & A9 & E9) & (v10 & A10 & E10) & (v11 & A11 & E11)).
  exists c. split; [exact R|]. split; [|exact A2n]. unfold told, line_value. cbn [options_of].
  split; [exact A1|]. split; [left; exact A2|]. split; [left; exact A3|].
  split; [exists v4; split; [left; exact A4|exact E4]|]. split; [exists v5; split; [left; exact A5|exact E5]|].
  split; [left; exact A6|]. split; [left; exact A7|].
  split; [exists v8; split; [left; exact A8|exact E8]|]. split; [exists v9; split; [left; exact A9|exact E9]|].
  split; [exists v10; split; [left; exact A10|exact E10]|]. exists v11; split; [left; exact A11|exact E11].
Qed.

(** ** trace-flow-set *)
Definition trace_request (name : chars) (protocols dsts srcs dports sports match_ : option chars) : list (chars * chars) :=
  (str "action", str "trace-set") :: (str "name", name) ::
  given_opt "protocols" protocols ++ given_opt "dsts" dsts ++ given_opt "srcs" srcs ++
  given_opt "dports" dports ++ given_opt "sports" sports ++ given_opt "match" match_.
Lemma trace_sends n p d s dp sp m t : cmdTraceFlowSet n p d s dp sp m = Ok t -> t = request (trace_request n p d s dp sp m).
Proof.
  unfold cmdTraceFlowSet. intros H.
  repeat match type of H with (if ?b then _ else _) = _ => destruct b; [discriminate|] end.
  inversion H as [E]. clear H E t.
  unfold request, trace_request, lines. cbn [map concat fst snd]. fold lines. change (concat (map _ ?x)) with (lines x).
  rewrite <- !opt_line_req.
  assert (E : opt_line (str "match") m = lines (given_opt "match" m)).
  { rewrite <- (app_nil_r (given_opt _ _)), <- opt_line_req. cbn. rewrite app_nil_r. auto. }
  rewrite <- E. unfold field_line. rewrite <- ?app_assoc; cbn [app]; rewrite <- ?app_assoc; reflexivity.
Qed.
Lemma nodup_trace n p d s dp sp m : NoDup (map fst (trace_request n p d s dp sp m)).
Proof.
  unfold trace_request. cbn [map fst]. rewrite !map_app, !given_opt_fst.
  destruct p, d, s, dp, sp, m; cbn [app]; apply nodup_b; vm_compute; reflexivity.
Qed.
Lemma trace_line its tail : Forall (item_ok traceSetOpts) its -> forall vals ws, parseOptions traceSetOpts (line its tail) = Ok (Parsed vals ws) ->
  exists h n p d s dp sp m, vals = [h; Some n; p; d; s; dp; sp; m] /\
    value_of traceSetOpts its "name" (Some n) /\ value_of traceSetOpts its "protocols" p /\ value_of traceSetOpts its "dsts" d /\
    value_of traceSetOpts its "srcs" s /\ value_of traceSetOpts its "dports" dp /\ value_of traceSetOpts its "sports" sp /\ value_of traceSetOpts its "match" m.
Proof.
  intros F vals ws R. destruct (line_vals TraceSet its tail vals ws F R) as (L & V). unfold zlen in L. cbn [options_of traceSetOpts length] in L.
  destruct vals as [|v0 [|v1 [|v2 [|v3 [|v4 [|v5 [|v6 [|v7 [|]]]]]]]]]; cbn [length] in L; try lia.
  destruct (V 1 _ v1 eq_refl eq_refl) as (V1 & N1). destruct v1 as [n|]; [|destruct N1; reflexivity].
  destruct (V 2 _ v2 eq_refl eq_refl) as (V2 & _). destruct (V 3 _ v3 eq_refl eq_refl) as (V3 & _). destruct (V 4 _ v4 eq_refl eq_refl) as (V4 & _).
  destruct (V 5 _ v5 eq_refl eq_refl) as (V5 & _). destruct (V 6 _ v6 eq_refl eq_refl) as (V6 & _). destruct (V 7 _ v7 eq_refl eq_refl) as (V7 & _).
  exists v0, n, v2, v3, v4, v5, v6, v7. split; [reflexivity|].
  repeat split; (eexists; eexists; split; [|split; [|eassumption]]; reflexivity).
Qed.
Lemma trace_told its tail s rest : Forall (item_ok (options_of TraceSet)) its -> carried TraceSet its tail -> sends TraceSet (line its tail) = Ok (Some s) ->
  exists c, readFlowCmd (s ++ rest) = Ok (Some (c, rest)) /\ told TraceSet its c /\ c_name c <> None.
Proof.
  intros F (P & S) E. cbn [sends] in E. unfold traceSetLine in E.
  destruct (parse_total traceSetOpts (line its tail)) as (r & R); [vm_compute; discriminate|]. rewrite R in E. cbn [obind] in E.
  destruct r as [| |vals ws]; try discriminate.
  destruct (trace_line its tail F vals ws R) as (h & n & p & d & sr & dp & sp & m & -> & V1 & V2 & V3 & V4 & V5 & V6 & V7).
  destruct (cmdTraceFlowSet n p d sr dp sp m) as [t| | |] eqn:C; try discriminate. cbn [obind] in E. inversion E; subst t. clear E.
  assert (TS := trace_sends _ _ _ _ _ _ _ _ C).
  destruct (request_decoded (trace_request n p d sr dp sp m) rest) as (c & RD & D).
  - apply nodup_trace.
  - assert (PO : forall x v, value_of traceSetOpts its x v -> plain_opt v) by (intros x v H; eapply (line_plain TraceSet); [exact P|left; exact H]).
    unfold cmdTraceFlowSet in C. destruct (too_long p || too_long d || too_long sr || too_long dp || too_long sp || too_long m) eqn:TL; [discriminate|]. clear C.
    repeat (apply orb_false_iff in TL; let T := fresh "T" in destruct TL as (TL & T)).
    assert (G : forall f v, In (str f) fields -> zlen (str f) <= 20 -> plain_opt v -> too_long v = false ->
       Forall (fun fv => In (fst fv) fields /\ line_ok (fst fv) (snd fv)) (given_opt f v)).
    { intros f [v|] HF HL HP HT; cbn [given_opt]; constructor; auto. split; auto. cbn [fst snd].
      apply line_ok_short; auto. unfold too_long, MAX_ARG_LEN in HT. lia. }
    unfold trace_request. constructor; [split; [left; reflexivity|apply line_ok_short; [split; vm_compute; intuition discriminate|vm_compute; discriminate|vm_compute; discriminate]]|].
    constructor; [split; [right; left; reflexivity|apply line_ok_short; [apply (PO _ _ V1)|apply (S "name"%string); [cbn; auto|exact V1]|vm_compute; discriminate]]|].
    rewrite !Forall_app. repeat apply conj.
    all: apply G; [repeat first [left; reflexivity|right]|vm_compute; discriminate|eapply PO; eassumption|assumption].
  - exists c. rewrite TS. split; [exact RD|]. split; [|destruct D as (_ & D & _); rewrite D; discriminate].
    apply told_of with (l := trace_request n p d sr dp sp m); [exact D|reflexivity|]. intros f x I. cbn [In] in I.
    repeat (destruct I as [I|I]); [| | | | | | | | | |destruct I]; inversion I; subst f x; clear I.
    + left. exact V1.
    + replace (given_value (str "target") _) with (@None chars); [apply line_not; reflexivity|]. symmetry. unfold trace_request.
      rewrite !gv_cons by reflexivity. rewrite !gv_skip by reflexivity. apply gv_no. reflexivity.
    + replace (given_value (str "priority") _) with (@None chars); [apply line_not; reflexivity|]. symmetry. unfold trace_request.
      rewrite !gv_cons by reflexivity. rewrite !gv_skip by reflexivity. apply gv_no. reflexivity.
    + replace (given_value (str "protocols") _) with p; [left; exact V2|]. symmetry. unfold trace_request. gv.
    + replace (given_value (str "dports") _) with dp; [left; exact V5|]. symmetry. unfold trace_request. gv.
    + replace (given_value (str "sports") _) with sp; [left; exact V6|]. symmetry. unfold trace_request. gv.
    + replace (given_value (str "dsts") _) with d; [left; exact V3|]. symmetry. unfold trace_request. gv.
    + replace (given_value (str "srcs") _) with sr; [left; exact V4|]. symmetry. unfold trace_request. gv.
    + replace (given_value (str "match") _) with m; [left; exact V7|]. symmetry. unfold trace_request. gv.
    + replace (given_value (str "udpencap") _) with (@None chars); [apply line_not; reflexivity|]. symmetry. unfold trace_request.
      rewrite !gv_cons by reflexivity. rewrite !gv_skip by reflexivity. apply gv_no. reflexivity.
Qed.

(** ** All of them *)
Lemma client_told k its tail s rest : Forall (item_ok (options_of k)) its -> carried k its tail -> sends k (line its tail) = Ok (Some s) ->
  exists c, readFlowCmd (s ++ rest) = Ok (Some (c, rest)) /\ told k its c /\ (names_one k -> c_name c <> None).
Proof.
  intros F C S. destruct k; try (apply (list_told _ its tail); auto; exact Logic.I).
  - destruct (set_told its tail s rest F C S) as (c & R & T & N). eauto.
  - destruct (trace_told its tail s rest F C S) as (c & R & T & N). eauto.
Qed.
Lemma client_lines k words s : sends k words = Ok (Some s) ->
  exists its tail, words = line its tail /\ Forall (item_ok (options_of k)) its /\ forall i, ~ missing (options_of k) its i.
Proof.
  intros S. destruct (parse_total (options_of k) words) as (r & R); [exact (options_small k)|].
  assert (Q : exists vals ws, r = Parsed vals ws).
  { destruct k; cbn [sends options_of] in *; unfold flowSetLine, nameLine, listLine, plainLine, traceSetLine in S; rewrite R in S; cbn [obind] in S;
      destruct r; try discriminate; eauto. }
  destruct Q as (vals & ws & ->). destruct (accepted_line _ _ _ _ (options_ok k) R) as (its & tail & -> & F & M & _). exists its, tail. auto.
Qed.
Lemma trace_checks its tail : Forall (item_ok traceSetOpts) its -> (forall i, ~ missing traceSetOpts its i) ->
  (trace_checked its -> exists s, sends TraceSet (line its tail) = Ok (Some s)) /\
  (~ trace_checked its -> sends TraceSet (line its tail) = Die).
Proof.
  intros F M. destruct (line_read _ its tail (options_ok TraceSet) F M) as (vals & R & _). cbn [options_of] in R. cbn [sends]. unfold traceSetLine. rewrite R. cbn [obind].
  destruct (trace_line its tail F vals _ R) as (h & n & p & d & sr & dp & sp & m & -> & V1 & V2 & V3 & V4 & V5 & V6 & V7).
  assert (U : forall x v w, value_of traceSetOpts its x v -> value_of traceSetOpts its x w -> v = w).
  { intros x v w (i & o & Z & N & H) (i' & o' & Z' & N' & H').
    assert (X : i = i'). { eapply (names_unique traceSetOpts); [exact (proj1 (proj2 (options_ok TraceSet)))|exact Z|exact Z'|congruence]. } subst i'.
    eapply value_unique; eauto. exact (options_ok TraceSet). }
  unfold cmdTraceFlowSet.
  destruct (too_long p || too_long d || too_long sr || too_long dp || too_long sp || too_long m) eqn:TL.
  - split; [|reflexivity]. intros (A & _). exfalso.
    assert (X : forall x v, In x ["protocols"; "dsts"; "srcs"; "dports"; "sports"; "match"]%string -> value_of traceSetOpts its x v -> too_long v = false).
    { intros x [v|] I H; [|reflexivity]. cbn [too_long]. unfold MAX_ARG_LEN. specialize (A x v I H). lia. }
    rewrite (X "protocols"%string p), (X "dsts"%string d), (X "srcs"%string sr), (X "dports"%string dp), (X "sports"%string sp), (X "match"%string m) in TL;
      cbn [In]; auto 10. discriminate.
  - repeat (apply orb_false_iff in TL; let T := fresh "T" in destruct TL as (TL & T)).
    assert (LN : forall x v, In x ["protocols"; "dsts"; "srcs"; "dports"; "sports"; "match"]%string -> value_of traceSetOpts its x (Some v) -> zlen v <= 1000).
    { assert (Y : forall v, too_long (Some v) = false -> zlen v <= 1000) by (intros v; cbn [too_long]; unfold MAX_ARG_LEN; lia).
      intros x v I H. apply Y. cbn [In] in I. destruct I as [<-|[<-|[<-|[<-|[<-|[<-|[]]]]]]].
      - rewrite (U _ _ _ H V2). auto.
      - rewrite (U _ _ _ H V3). auto.
      - rewrite (U _ _ _ H V4). auto.
      - rewrite (U _ _ _ H V5). auto.
      - rewrite (U _ _ _ H V6). auto.
      - rewrite (U _ _ _ H V7). auto. }
    destruct ((given dp || given sp) && negb (given p)) eqn:G.
    + split; [|reflexivity]. intros (_ & B). exfalso. apply andb_true_iff in G. destruct G as (G1 & G2). destruct p as [p|]; [discriminate|].
      apply orb_true_iff in G1. destruct G1 as [G1|G1].
      * destruct dp as [dp|]; [|discriminate]. destruct (B "dports"%string dp) as (q & Q); [cbn; auto|exact V5|]. discriminate (U _ _ _ Q V2).
      * destruct sp as [sp|]; [|discriminate]. destruct (B "sports"%string sp) as (q & Q); [cbn; auto|exact V6|]. discriminate (U _ _ _ Q V2).
    + split; [intros _; cbn [obind]; eauto|]. intros N. exfalso. apply N. split; [exact LN|]. intros x v I H.
      destruct p as [p|]; [eauto|]. cbn [given negb] in G. rewrite andb_true_r in G. apply orb_false_iff in G. destruct G as (G1 & G2).
      cbn [In] in I. destruct I as [<-|[<-|[]]].
      * assert (X := U _ _ _ H V5). subst dp. discriminate.
      * assert (X := U _ _ _ H V6). subst sp. discriminate.
Qed.
