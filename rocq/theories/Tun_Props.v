(** C86: tun devices. *)
From Coq Require Import String.
From Verif Require Import Base Cstr_Model Tun_Model Tun_Spec Tun_Proofs Tun2_Proofs Tun3_Proofs.
From Verif Require Start_Model.

(** In every history of a host, of a start with a good name (1 to 15 characters): the program runs
    exactly if the system calls succeed and the device is free, a tun device and large enough or can
    be made; it then is the user of exactly that device and no other device is changed.  Otherwise it
    ends and everything is as before. *)
Theorem C86_start : forall h0 l h i n mtu a b, fresh_host h0 -> thist h0 l h -> 0 <= i -> 0 <= mtu -> proc h i = None -> good_name n ->
  exists h' o, tevent h (TStart i (Some n) mtu a b) = Ok (h', o) /\
    (o = Runs /\ a = true /\ b = true /\ usable_dev (h_kern h) n mtu /\ given_to (h_kern h) (h_kern h') n i /\ h_lbs h' = mkLbp i (Some n) i :: h_lbs h \/
     o = Ends /\ h' = h /\ ~ (a = true /\ b = true /\ usable_dev (h_kern h) n mtu)).
Proof. exact start_good. Qed.
Print Assumptions C86_start.

(** This is what the start of C75 takes as given. *)
Theorem C86_of_start : forall K opened sock i E n mtu, zlen n < 40 ->
  ((exists K' fd, openTun K opened sock i (Some n) mtu = Ok (K', Some fd)) <->
   Start_Model.e_tun (tun_env K opened sock i E) n = true /\ mtu <= Start_Model.e_mtu (tun_env K opened sock i E) n).
Proof. exact open_start. Qed.
Print Assumptions C86_of_start.

(** The stored fragments a load-balancer injects: all of them are received whole and in order on the
    device given with --tun while that is up and has not been deleted; each one that is not gives a
    warning; nothing is ever received on another device. *)
Theorem C86_injected : forall h0 hs h i p l, fresh_host h0 -> thist h0 hs h -> proc h i = Some p ->
  exists out w, tevent h (TInject i l) = Ok (h, Received out w) /\
    (forall n, connected h p n -> Forall ip_packet l -> out = map (pair n) l /\ w = 0) /\
    (p_tun p <> None -> disconnected h p -> out = [] /\ w = zlen l) /\
    (p_tun p = None -> out = []) /\
    Forall (fun x => p_tun p = Some (fst x)) out.
Proof. exact inject_ok. Qed.
Print Assumptions C86_injected.

(** A device has one user, which was started with its name and has no other device ... *)
Theorem C86_one_user : forall h0 l h d f, fresh_host h0 -> thist h0 l h -> In d (k_devs (h_kern h)) -> d_file d = Some f ->
  exists p, proc h f = Some p /\ p_tun p = Some (d_name d) /\
    (forall d', In d' (k_devs (h_kern h)) -> d_file d' = Some f -> d' = d).
Proof. exact one_user. Qed.
Print Assumptions C86_one_user.
(** ... and stays so whatever happens, but for its end and the deletion of the device. *)
Theorem C86_kept : forall h0 l h d f e h' o, fresh_host h0 -> thist h0 l h -> In d (k_devs (h_kern h)) -> d_file d = Some f ->
  (forall i tun mtu a b, e = TStart i tun mtu a b -> 0 <= i /\ proc h i = None /\ match tun with Some n => good_name n | None => True end) ->
  tevent h e = Ok (h', o) -> e <> TEnd f -> e <> TDel (d_name d) ->
  exists d', In d' (k_devs (h_kern h')) /\ d_name d' = d_name d /\ d_file d' = Some f.
Proof. exact keeps. Qed.
Print Assumptions C86_kept.

Example C86_example : fresh_host host0 /\ good_name (str "nfqlb0") /\ good_name (str "nfqlb1") /\
  (exists h p, thist host0 [(TStart 1 (Some (str "nfqlb0")) 1500 true true, Runs)] h /\ proc h 1 = Some p /\ connected h p (str "nfqlb0") /\
     Forall ip_packet [ip4 1; ip4 2]) /\
  exists t h, trun host0 session = Some (t, h) /\
    map snd t = [Runs; Ends; Runs; Received [(str "nfqlb0", ip4 1); (str "nfqlb0", ip4 2)] 0; Received [] 1; Done;
                 Received [(str "nfqlb1", ip4 4)] 0; Done; Ends; Runs].
Proof.
  split; [exact host0_fresh|]. split; [exact (proj1 name_ok)|]. split; [exact (proj2 name_ok)|]. split; [|exact session_run].
  eexists. eexists. split; [exact step1|]. split; [reflexivity|]. split.
  - split; [reflexivity|]. eexists. split; [left; reflexivity|]. auto.
  - repeat constructor; (eexists; eexists; split; [reflexivity|left; reflexivity]).
Qed.

(** False of longer names: two load-balancers with different names use the same device, whose name
    is neither of them, and the second one ends. *)
Theorem C86_long_name_refuted : zlen n15 = 15 /\ longA <> longB /\ fresh_host hostL /\
  exists h1 h2, tevent hostL (TStart 1 (Some longA) 1500 true true) = Ok (h1, Runs) /\
    tevent h1 (TInject 1 [ip4 1]) = Ok (h1, Received [(n15, ip4 1)] 0) /\
    tevent h1 (TStart 2 (Some longB) 1500 true true) = Ok (h2, Ends).
Proof. exact long_run. Qed.
Print Assumptions C86_long_name_refuted.
(** From 40 characters on get_mtu writes outside its variable, once the device is there. *)
Theorem C86_very_long_name_refuted : forall K sock i n mtu K1, 40 <= zlen n -> 0 <= i ->
  tun_alloc K true i n (Z.lor IFF_TUN IFF_NO_PI) = (K1, i) -> sock = true -> openTun K true sock i (Some n) mtu = UB.
Proof. exact long_ub. Qed.
Print Assumptions C86_very_long_name_refuted.
Example C86_very_long_ex : 40 <= zlen (n15 ++ n15 ++ n15) /\ snd (tun_alloc (h_kern hostL) true 1 (n15 ++ n15 ++ n15) (Z.lor IFF_TUN IFF_NO_PI)) = 1.
Proof. split; [vm_compute; discriminate|reflexivity]. Qed.
