(** What a user expects of --tun (C86). *)
From Verif Require Import Base Cstr_Model Tun_Model.

(** A name as `ip tuntap add` takes it: 1 to 15 characters, none of them '%', '/', ':' or white space *)
Definition good_name (n : chars) : Prop :=
  validName n = true /\ zlen n < 16 /\ Forall (fun c => 0 < c < 256) n /\ ~ In 37 n.

(** The device [n] can be used with this mtu: it is there, a tun device nobody uses
    and large enough, or it can be made (with an mtu of 1500). *)
Definition usable_dev (K : kern) (n : chars) (mtu : Z) : Prop :=
  (exists d, In d (k_devs K) /\ d_name d = n /\ d_kind d = KTun /\ d_file d = None /\ mtu <= d_mtu d) \/
  ((forall d, In d (k_devs K) -> d_name d <> n) /\ k_create K = true /\ mtu <= 1500).

(** The device [n], and all others as they were: with the only user [i], packets without a header *)
Definition given_to (K K' : kern) (n : chars) (i : Z) : Prop :=
  (exists d, In d (k_devs K') /\ d_name d = n /\ d_kind d = KTun /\ d_file d = Some i /\ d_pi d = false) /\
  (forall d, d_name d <> n -> (In d (k_devs K') <-> In d (k_devs K))) /\
  NoDup (map d_name (k_devs K')).

(** [p] still has its device, and the device is up. *)
Definition connected (h : thost) (p : lbp) (n : chars) : Prop :=
  p_tun p = Some n /\ exists d, In d (k_devs (h_kern h)) /\ d_name d = n /\ d_file d = Some (p_id p) /\ d_up d = true.
(** [p] has no device, or it is not up. *)
Definition disconnected (h : thost) (p : lbp) : Prop :=
  forall d, In d (k_devs (h_kern h)) -> d_file d = Some (p_id p) -> d_up d = false.
Definition ip_packet (d : list Z) : Prop := exists b r, d = b :: r /\ (b / 16 = 4 \/ b / 16 = 6).

(** ** Histories: processes with new numbers, and good names *)
Inductive thist : thost -> list (tev * tout) -> thost -> Prop :=
| th_nil : forall h, thist h [] h
| th_cons : forall h l h1 e o h2, thist h l h1 ->
    (forall i tun mtu a b, e = TStart i tun mtu a b ->
       0 <= i /\ proc h1 i = None /\ match tun with Some n => good_name n | None => True end) ->
    tevent h1 e = Ok (h2, o) -> thist h (l ++ [(e, o)]) h2.
(** At first: devices with different names that nobody uses, no process *)
Definition fresh_host (h : thost) : Prop :=
  h_lbs h = [] /\ NoDup (map d_name (k_devs (h_kern h))) /\ Forall (fun d => d_file d = None /\ d_pi d = false /\ d_temp d = false) (k_devs (h_kern h)).
