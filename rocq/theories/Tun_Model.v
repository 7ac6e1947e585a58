(** Tun devices: src/lib/tuntap.c, how the load-balancers open one (cmdLb.c:191-209,
    cmdFlowLb.c:310-328) and injectFrag (cmdLb.c:40-50, cmdFlowLb.c:81-91).

    The kernel is not part of /repo; below is what the model trusts of Linux
    (drivers/net/tun.c, net/core/dev_ioctl.c): TUNSETIFF attaches an open file to a
    device or creates one, the name is cut after 15 characters, a device has one file,
    and what is written is received on the device.  Renaming, several queues per device,
    name spaces and access rights of existing devices are left out; whether a device
    may be created, and the name chosen for "" or a name with '%', are parameters. *)
From Coq Require Import String.
From Verif Require Import Base Cstr_Model.

(** ** struct ifreq, 40 bytes: the name (IFNAMSIZ = 16), and a union of 24 *)
Definition ifreq := list Z.
(** memset, tuntap.c:27, 48 *)
Definition zeroed : ifreq := repeat 0 40.
(** ifr_flags, a short at offset 16: tuntap.c:28 *)
Definition setFlags (r : ifreq) (flags : Z) : ifreq := firstn 16 r ++ [flags mod 256; flags / 256 mod 256] ++ skipn 18 r.
(** strncpy(ifr.ifr_name, dev, IFNAMSIZ), tuntap.c:29: no more than 16 characters, filled up with 0 *)
Definition strncpyName (r : ifreq) (dev : chars) : ifreq := firstn 16 (dev ++ repeat 0 16) ++ skipn 16 r.
(** strcpy(ifr.ifr_name, dev), tuntap.c:49: what does not fit in the name goes on
    into the union; beyond the structure it is undefined. *)
Definition strcpyName (r : ifreq) (dev : chars) : outcome ifreq :=
  if 40 <? zlen dev + 1 then UB else Ok (dev ++ [0] ++ skipn (length dev + 1) r).

Definition IFF_TUN : Z := 1.
Definition IFF_TAP : Z := 2.
Definition IFF_NO_PI : Z := 4096.

(** ** The kernel *)
Inductive kind := KTun | KTap | KOther.
Record tdev := mkDev {
  d_name : chars; d_kind : kind; d_mtu : Z; d_up : bool;
  d_file : option Z;  (* the open file attached *)
  d_pi : bool;        (* a header of 4 bytes precedes each packet *)
  d_temp : bool       (* the device goes with its file *)
}.
Record kern := mkKern { k_devs : list tdev; k_create : bool; k_pick : list chars -> chars -> chars }.
Definition set_devs (K : kern) (l : list tdev) : kern := mkKern l (k_create K) (k_pick K).
Definition find_dev (K : kern) (n : chars) : option tdev := find (fun d => streq (d_name d) n) (k_devs K).
Definition set_dev (K : kern) (n : chars) (d' : tdev) : kern :=
  set_devs K (map (fun d => if streq (d_name d) n then d' else d) (k_devs K)).

(** The name the kernel reads: 15 characters at most *)
Definition nameOf (r : ifreq) : chars := fst (span (fun c => negb (c =? 0)) (firstn 15 r)).
Definition flagsOf (r : ifreq) : Z := nth 16 r 0 + 256 * nth 17 r 0.
(** dev_valid_name *)
Definition validName (n : chars) : bool :=
  negb (streq n []) && negb (streq n (str ".")) && negb (streq n (str "..")) &&
  forallb (fun c => negb (inset [47; 58; 32; 9; 10; 11; 12; 13; 160] c)) n.
Definition kindOf (flags : Z) : option kind :=
  if Z.testbit flags 0 then Some KTun else if Z.testbit flags 1 then Some KTap else None.
Definition sameKind (a b : kind) : bool := match a, b with KTun, KTun | KTap, KTap | KOther, KOther => true | _, _ => false end.
(** Template names *)
Definition template (n : chars) : bool := streq n [] || inset n 37.

(** ioctl(f, TUNSETIFF, r); None: an error *)
Definition tunSetIff (K : kern) (f : Z) (r : ifreq) : option kern :=
  match kindOf (flagsOf r) with
  | None => None
  | Some kd =>
      let pi := negb (Z.testbit (flagsOf r) 12) in
      let n := nameOf r in
      match find_dev K n with
      | Some d =>
          if sameKind (d_kind d) kd then
            match d_file d with
            | Some _ => None (* EBUSY *)
            | None => Some (set_dev K n (mkDev (d_name d) (d_kind d) (d_mtu d) (d_up d) (Some f) pi (d_temp d)))
            end
          else None
      | None =>
          let n := if template n then k_pick K (map d_name (k_devs K)) n else n in
          if k_create K && validName n && negb (existsb (fun d => streq (d_name d) n) (k_devs K))
          then Some (set_devs K (k_devs K ++ [mkDev n kd 1500 false (Some f) pi true]))
          else None
      end
  end.
(** ioctl(SIOCGIFMTU): what follows a ':' is not looked at *)
Definition getIfMtu (K : kern) (r : ifreq) : option Z :=
  match find_dev K (fst (span (fun c => negb (c =? 58)) (nameOf r))) with Some d => Some (d_mtu d) | None => None end.
(** close of f, also at the end of the process *)
Definition closeFile (K : kern) (f : Z) : kern :=
  set_devs K (flat_map (fun d =>
    match d_file d with
    | Some f' =>
        if f' =? f then
          if d_temp d then [] else [mkDev (d_name d) (d_kind d) (d_mtu d) (d_up d) None (d_pi d) false]
        else [d]
    | None => [d]
    end) (k_devs K)).
(** write(f, data, len): the number of bytes written or -1, and what is received on which device *)
Definition writeFile (K : kern) (f : Z) (data : list Z) : Z * list (chars * list Z) :=
  match find (fun d => match d_file d with Some f' => f' =? f | None => false end) (k_devs K) with
  | None => (-1, [])
  | Some d =>
      if negb (d_up d) then (-1, [])
      else
        let h := ((if d_pi d then 4 else 0) + match d_kind d with KTap => 14 | _ => 0 end) in
        let p := skipn (Z.to_nat h) data in
        if zlen data <? h then (-1, [])
        else match d_kind d with
             | KTap => (zlen data, [(d_name d, p)])
             | _ =>
                 match p with
                 | b :: _ => if (b / 16 =? 4) || (b / 16 =? 6) then (zlen data, [(d_name d, p)]) else (-1, [])
                 | [] => (-1, [])
                 end
             end
  end.

(** ** tun_alloc, tuntap.c:14-38: the descriptor (here: of file f, if /dev/net/tun can be opened) or -1 *)
Definition tun_alloc (K : kern) (opened : bool) (f : Z) (dev : chars) (flags : Z) : kern * Z :=
  if opened then
    match tunSetIff K f (strncpyName (setFlags zeroed flags) dev) with
    | None => (closeFile K f, -1)
    | Some K' => (K', f)
    end
  else (K, -1).
(** get_mtu, tuntap.c:40-56; [sock]: a socket can be had *)
Definition get_mtu (K : kern) (sock : bool) (dev : chars) : outcome Z :=
  if sock then
    do r <- strcpyName zeroed dev;
    Ok (match getIfMtu K r with Some m => m | None => -1 end)
  else Ok (-1).

(** cmdLb.c:191-209: tun_fd of the process (-1: none) or its end (None); f: the number of the file,
    also of the process *)
Definition openTun (K : kern) (opened sock : bool) (f : Z) (tun : option chars) (mtu : Z) : outcome (kern * option Z) :=
  match tun with
  | None => Ok (K, Some (-1))
  | Some dev =>
      let (K1, fd) := tun_alloc K opened f dev (Z.lor IFF_TUN IFF_NO_PI) in
      if fd <? 0 then Ok (closeFile K1 f, None)
      else
        do m <- get_mtu K1 sock dev;
        if m <? mtu then Ok (closeFile K1 f, None) else Ok (K1, Some fd)
  end.

(** injectFrag, cmdLb.c:40-50: what is received, and whether a warning is logged *)
Definition injectFrag (K : kern) (fd : Z) (data : list Z) : list (chars * list Z) * bool :=
  if 0 <=? fd then
    let (rc, out) := writeFile K fd data in (out, negb (rc =? zlen data))
  else ([], false).
(** handleFirstFragment, fragutils.c:461-472: for each stored fragment *)
Fixpoint injectAll (K : kern) (fd : Z) (l : list (list Z)) : list (chars * list Z) * Z :=
  match l with
  | [] => ([], 0)
  | d :: r =>
      let (out, w) := injectFrag K fd d in
      let (out', n) := injectAll K fd r in
      (out ++ out', (if w then 1 else 0) + n)
  end.

(** ** A host: the kernel, and the load-balancers with the value of --tun and tun_fd *)
Record lbp := mkLbp { p_id : Z; p_tun : option chars; p_fd : Z }.
Record thost := mkTH { h_kern : kern; h_lbs : list lbp }.
Inductive tev :=
| TStart (i : Z) (tun : option chars) (mtu : Z) (opened sock : bool)
| TEnd (i : Z)
| TInject (i : Z) (l : list (list Z))
(* the administrator: a new device, deleting, mtu, up or down *)
| TAdd (n : chars) (k : kind) (mtu : Z)
| TDel (n : chars)
| TMtu (n : chars) (mtu : Z)
| TUp (n : chars) (up : bool).
Inductive tout := Runs | Ends | Received (l : list (chars * list Z)) (warnings : Z) | Done.

Definition proc (h : thost) (i : Z) : option lbp := find (fun p => p_id p =? i) (h_lbs h).
Definition delDev (K : kern) (n : chars) : kern := set_devs K (filter (fun d => negb (streq (d_name d) n)) (k_devs K)).
Definition tevent (h : thost) (e : tev) : outcome (thost * tout) :=
  let K := h_kern h in
  match e with
  | TStart i tun mtu opened sock =>
      do x <- openTun K opened sock i tun mtu;
      let '(K', r) := x in
      match r with
      | None => Ok (mkTH K' (h_lbs h), Ends)
      | Some fd => Ok (mkTH K' (mkLbp i tun fd :: h_lbs h), Runs)
      end
  | TEnd i => Ok (mkTH (closeFile K i) (filter (fun p => negb (p_id p =? i)) (h_lbs h)), Done)
  | TInject i l =>
      match proc h i with
      | None => Ok (h, Done)
      | Some p => let (out, w) := injectAll K (p_fd p) l in Ok (h, Received out w)
      end
  | TAdd n k mtu =>
      match find_dev K n with
      | Some _ => Ok (h, Done)
      | None => Ok (mkTH (if validName n && (zlen n <? 16) then set_devs K (k_devs K ++ [mkDev n k mtu false None false false]) else K) (h_lbs h), Done)
      end
  | TDel n => Ok (mkTH (delDev K n) (h_lbs h), Done)
  | TMtu n m =>
      match find_dev K n with
      | None => Ok (h, Done)
      | Some d => Ok (mkTH (set_dev K n (mkDev (d_name d) (d_kind d) m (d_up d) (d_file d) (d_pi d) (d_temp d))) (h_lbs h), Done)
      end
  | TUp n up =>
      match find_dev K n with
      | None => Ok (h, Done)
      | Some d => Ok (mkTH (set_dev K n (mkDev (d_name d) (d_kind d) (d_mtu d) up (d_file d) (d_pi d) (d_temp d))) (h_lbs h), Done)
      end
  end.
