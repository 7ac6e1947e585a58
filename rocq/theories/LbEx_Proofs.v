(** Examples for C48. *)
From Coq Require Import String.
From Verif Require Import Base Lists Cstr_Model Util_Proofs IpKey_Model IpKey_Spec Maglev_Model Match_Spec Flow_Model Flow_Spec Flow_Proofs Flow2_Proofs Flow3_Proofs
  Remote_Model FlowLb_Model FlowLb_Spec FlowLb4_Proofs FlowLb5_Proofs Lb_Model Lb_Spec.
From Verif Require Frag_Model.

Lemma exec_play h may w tr w' : exec h may w tr w' -> play nochk h w (map fst tr) = Some (w', tr).
Proof.
  induction 1 as [w|w tr w1 m ev w2 H IH M E]; auto. rewrite map_app. cbn [map].
  assert (G : forall ms w tr w1, play nochk h w ms = Some (w1, tr) -> step h w1 m = Some (Cont w2 ev) -> play nochk h w (ms ++ [m]) = Some (w2, tr ++ [(m, ev)])).
  { clear. induction ms as [|x ms IH]; intros w tr w1 P E; cbn [play app] in *.
    - assert (w1 = w /\ tr = []) as (-> & ->) by (split; congruence). cbn [nochk]. rewrite E. auto.
    - cbn [nochk] in *. destruct (step h w x) as [[w3 e3| |]|]; try discriminate. destruct (play nochk h w3 ms) as [[w4 t4]|] eqn:EP; [|discriminate].
      assert (w1 = w4 /\ tr = (x, e3) :: t4) as (-> & ->) by (split; congruence). rewrite (IH w3 t4 w4 EP E). auto. }
  eapply G; eauto.
Qed.
(** A property that is checked of all worlds of a schedule *)
Lemma play_worlds h w ms (chk : world -> Prop) :
  (forall n, (n <= length ms)%nat -> match play nochk h w (firstn n ms) with Some (w', _) => chk w' | None => True end) ->
  forall w2 tr, play nochk h w ms = Some (w2, tr) -> exec h anything w tr w2 /\ forall w', passed h w tr w2 w' -> chk w'.
Proof.
  intros C w2 tr P. assert (E : exec h anything w tr w2) by (eapply play_exec; [|exact P]; intros; exact I). split; auto.
  intros w' (t1 & t2 & -> & H1 & H2). pose proof (exec_play _ _ _ _ _ E) as PM. pose proof (exec_play _ _ _ _ _ H1) as P1.
  assert (MS : map fst (t1 ++ t2) = ms).
  { clear - P. revert w w2 P. generalize (t1 ++ t2). induction ms as [|m ms IH]; intros tr w w2 P; cbn [play] in P.
    - assert (tr = []) as -> by congruence. auto.
    - cbn [nochk] in P. destruct (step h w m) as [[w3 e3| |]|]; try discriminate. destruct (play nochk h w3 ms) as [[w4 t4]|] eqn:EP; [|discriminate].
      assert (tr = (m, e3) :: t4) as -> by congruence. cbn [map fst]. rewrite (IH t4 w3 w4 EP). auto. }
  specialize (C (length t1)). rewrite <- MS in C. rewrite map_app, firstn_app, map_length, Nat.sub_diag, firstn_O, app_nil_r in C.
  rewrite firstn_all2 in C by (rewrite map_length; auto). rewrite P1 in C. apply C. rewrite app_length, map_length. lia.
Qed.

(** One flow for SCTP to target t1, with mark 101; a packet *)
Definition c48_set : list frec :=
  match run ex_lib [] ex_udp_ops with Ok (set, _) => set | _ => [] end.
Definition c48_state : state :=
  mkSt [mkLb (str "t1") 1 1 false] [1] c48_set (Frag_Model.fragTableCreate (h_frag (ex_h false))) ex_shm ex_mem [].
Definition c48_world : world := mkW c48_state (Ret (Reply "")) [].
Definition c48_arrived : world := mkW c48_state (Ret (Reply "")) [packet (ex_h false) 1 false 2048 ex_native].
Lemma c48_rules : exists ans, run ex_lib [] ex_udp_ops = Ok (c48_set, ans) /\
  (forall n a, current ex_udp_ops ans n = Some a -> means ex_lib a (ex_udp_rules n)) /\
  (forall n a, current ex_udp_ops ans n = Some a -> r_match (ex_udp_rules n) <> None -> complete_plus ex_native 132 20) /\
  (forall n a, current ex_udp_ops ans n = Some a -> a_ref a <> 0 -> accepts_packet (ex_udp_rules n) ex_inner ex_native 20 ->
     exists o, deref c48_state (a_ref a) = Some o /\ 1 <= lb_ref o < 2147483647 /\ table_ok (t_mem c48_state (lb_region o))).
Proof.
  destruct ex_udp_example as (set & ans & E & M & _). exists ans.
  assert (S : c48_set = set) by (unfold c48_set; rewrite E; auto). rewrite S. split; auto. split; [intros n a C; apply (M n a C)|].
  split; [intros n a C X; destruct (M n a C); congruence|]. intros n a C NR _.
  assert (AR : a_ref a = 1).
  { assert (A : ans = [Defined None; Defined None]).
    { assert (X : match run ex_lib [] ex_udp_ops with Ok (_, x) => x | _ => [] end = [Defined None; Defined None]) by (vm_compute; reflexivity). rewrite E in X. auto. }
    rewrite A in C. assert (C' : current ex_udp_ops [Defined None; Defined None] n =
    if streq n (str "a") then Some (cmdArgs (sctpcmd (str "a") (str "t1") 10 None 9899) (str "a") 1)
    else if streq n (str "#a") then Some (udpArgs (sctpcmd (str "a") (str "t1") 10 None 9899) (str "a")) else None) by reflexivity.
    rewrite C' in C. destruct (streq n (str "a")); [|destruct (streq n (str "#a")); [|discriminate]].
    - injection C as <-. reflexivity.
    - injection C as <-. exfalso. apply NR. reflexivity. }
  rewrite AR. exists (mkLb (str "t1") 1 1 false). split; [reflexivity|]. cbn [lb_ref lb_region]. split; [lia|].
  unfold table_ok. cbn. split; [lia|]. split; auto. intros i [<-|[]]. lia.
Qed.
Lemma c48_packet : flow_ok ex_inner /\ l4_packet 2048 ex_native 132 (fl_src ex_inner) (fl_dst ex_inner) 20 /\
  ports_at ex_native 20 (fl_sport ex_inner) (fl_dport ex_inner).
Proof. split; [apply ex_flows_ok|]. split; [l4_solve|hdr_solve]. Qed.
Definition c48_chk (w : world) : Prop := t_set (w_st w) = c48_set /\ lbRegion 1 (w_st w) = Some 1 /\ t_mem (w_st w) 1 = ex_mem 1.
Lemma c48_run : exists tr w, step (ex_h false) c48_world (Arrive 1 false 2048 ex_native) = Some (Cont c48_arrived []) /\
  exec (ex_h false) anything c48_arrived tr w /\ (forall w', passed (ex_h false) c48_arrived tr w w' -> c48_chk w') /\
  znth (w_pk w) 0 = Some (Ret (Verdict 101)).
Proof.
  assert (X : match play nochk (ex_h false) c48_arrived (ps 0 4) with
    | Some (w, _) => match znth (w_pk w) 0 with Some (Ret (Verdict v)) => v =? 101 | _ => false end | None => false end = true) by (vm_compute; reflexivity).
  destruct (play nochk (ex_h false) c48_arrived (ps 0 4)) as [[w tr]|] eqn:E; [|discriminate].
  exists tr, w. split; [reflexivity|]. destruct (play_worlds (ex_h false) c48_arrived (ps 0 4) c48_chk) with (w2 := w) (tr := tr) as (H1 & H2); auto.
  - intros n N. cbn in N. do 5 (destruct n as [|n]; [vm_compute; repeat split|]). lia.
  - split; [exact H1|]. split; [exact H2|]. clear - X. destruct (znth (w_pk w) 0) as [[[v|]|]|]; try discriminate. apply Z.eqb_eq in X. subst v. auto.
Qed.

(** ** lb *)
Definition c48_lb : lconf := mkL (ex_h false) 9899 1.
Fixpoint lplay (g : lconf) (w : lworld) (ms : list lmove) : option lworld :=
  match ms with
  | [] => Some w
  | m :: r => match lstep g w m with Some (LCont w') => lplay g w' r | _ => None end
  end.
Lemma lexec_cons g w m w1 tr w2 : lstep g w m = Some (LCont w1) -> lexec g w1 tr w2 -> lexec g w (m :: tr) w2.
Proof.
  intros E. induction 1 as [w1|w1 tr w2 m2 w3 H IH E2]; [apply (lx_step g w [] w m w1); [constructor|auto]|].
  apply (lx_step g w (m :: tr) w2 m2 w3); auto.
Qed.
Lemma lplay_exec g ms : forall w w2, lplay g w ms = Some w2 -> lexec g w ms w2.
Proof.
  induction ms as [|m ms IH]; intros w w2 H; cbn [lplay] in H; [injection H as <-; constructor|].
  destruct (lstep g w m) as [[w1| |]|] eqn:E; try discriminate. eapply lexec_cons; eauto.
Qed.
Lemma c48_lb_run : exists tr w, lexec c48_lb (lstart c48_lb ex_mem) tr w /\ znth (lw_pk w) 0 = Some (Ret (Verdict 101)).
Proof.
  assert (X : match lplay c48_lb (lstart c48_lb ex_mem) [LArrive 1 false 2048 ex_encap; LStep 0; LStep 0] with
    | Some w => match znth (lw_pk w) 0 with Some (Ret (Verdict v)) => v =? 101 | _ => false end | None => false end = true) by (vm_compute; reflexivity).
  destruct (lplay c48_lb _ _) as [w|] eqn:E; [|discriminate]. eexists _, w. split; [apply (lplay_exec _ _ _ _ E)|].
  clear - X. destruct (znth (lw_pk w) 0) as [[[v|]|]|]; try discriminate. apply Z.eqb_eq in X. subst v. auto.
Qed.
