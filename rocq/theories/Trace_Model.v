(** Trace flows of flowlb: the requests (src/nfqlb/cmdFlowLb.c:532-540, 664-695),
    what is written for a packet (138-157), and the line for ICMP messages
    (src/lib/iputils.c:380-462).

    As in FlowLb_Model.v a step is what one thread does without another one
    getting in between: a call of the flow library (the set is locked), a
    read of a name, free().  Addresses of names that were freed are not given
    to new ones, so that every use of one is seen.

    Simplifications: what tracef does with a text (src/lib/log.c) and the
    line with addresses and ports (146-155) are left out; malloc and strdup
    do not fail (else die); fdopen of the connection does not fail. *)
From Coq Require Import String.
From Verif Require Import Base Cstr_Model IpKey_Model Rangeset_Model Flow_Model Remote_Model FlowLb_Model Print_Model.

(** ** The line for ICMP messages *)

(** ntohl of four bytes in memory *)
Definition be32 (l : list Z) : Z := be16 (firstn 2 l) * 65536 + be16 (skipn 2 l).

(** A line with two numbers *)
Definition twoNumbers (a : string) (x : Z) (b : string) (y : Z) : chars := str a ++ dec x ++ str b ++ dec y ++ nl.

(** printIcmp4, iputils.c:380-411.  Nothing checks that the ICMP header is in
    the packet. *)
Definition printIcmp4 (data : list Z) : outcome chars :=
  if negb (in_bounds 0 20 (zlen data)) then Ok []
  else
    do b0 <- aget data 0;
    if b0 mod 16 <? 5 then Ok []
    else
      do p <- aget data 9;
      if negb (p =? 1) then Ok []
      else
        let ihdr := 4 * (b0 mod 16) in
        do t <- aget data ihdr;
        if t =? 3 then
          do c <- aget data (ihdr + 1);
          if c =? 4 then do m <- rdn data (ihdr + 6) 2; Ok (str "ICMP_DEST_UNREACH/FRAG_NEEDED: mtu=" ++ dec (be16 m) ++ nl)
          else Ok (str "ICMP_DEST_UNREACH: code=" ++ dec c ++ nl)
        else if t =? 8 then
          do i <- rdn data (ihdr + 4) 2;
          do s <- rdn data (ihdr + 6) 2;
          Ok (twoNumbers "ICMP_ECHO: id=" (be16 i) ", seq=" (be16 s))
        else
          do c <- aget data (ihdr + 1);
          Ok (twoNumbers "ICMP " t ", " c).

(** printIcmp6, iputils.c:412-446; the loop is that of getInnerHashKeyIpv6 *)
Definition printIcmp6 (data : list Z) : outcome chars :=
  if negb (in_bounds 0 40 (zlen data)) then Ok []
  else
    do nxt <- aget data 6;
    do r <- ext_loop (S (length data)) false data nxt 40;
    match r with
    | None => Ok []
    | Some (htype, hdr) =>
        if negb (htype =? 58) then Ok []
        else
          do t <- aget data hdr;
          if t =? 2 then do m <- rdn data (hdr + 4) 4; Ok (str "ICMP6_PACKET_TOO_BIG: mtu=" ++ dec (be32 m) ++ nl)
          else if t =? 128 then
            do i <- rdn data (hdr + 4) 2;
            do s <- rdn data (hdr + 6) 2;
            Ok (twoNumbers "ICMP6_ECHO_REQUEST: id=" (be16 i) ", seq=" (be16 s))
          else
            do c <- aget data (hdr + 1);
            Ok (twoNumbers "ICMP6 " t ", " c)
    end.

(** printIcmp, iputils.c:448-462 *)
Definition printIcmp (eth : Z) (data : list Z) : outcome chars :=
  if eth =? 2048 then printIcmp4 data else if eth =? 34525 then printIcmp6 data else Ok [].

(** ** Trace flows *)

(** A packet for which a trace flow was found, and the address found
    (tflow) *)
Record found := mkFd { fd_id : Z; fd_ref : Z; fd_eth : Z; fd_data : list Z }.

(** The names made by strdup (number a-1 is the one at address a; None is a
    freed one), trace_fset, the address the flow thread is about to free (0:
    none), and the packets found *)
Record tworld := mkTW { x_names : list (option chars); x_set : list frec; x_free : Z; x_pk : list found }.
Definition tstart : tworld := mkTW [] [] 0 [].

Definition nameAt (w : tworld) (a : Z) : option chars :=
  match znth (x_names w) (a - 1) with Some (Some n) => Some n | _ => None end.

(** What happens next: a request that begins with "trace-" is handled (up to
    the call of free), the flow thread frees a name, a packet is looked up,
    the text for a packet is written. *)
Inductive tmove := TRequest (c : flowcmd) | TFree | TLookup (id eth : Z) (data : list Z) | TWrite (id : Z).

(** What is seen of it: the reply to the request (none if the connection is
    closed without one), whether a trace flow was found, the name and the
    line for ICMP written *)
Inductive tevent := Answer (s : chars) | NoAnswer | Found | Missed | Wrote (name icmp : chars).

Inductive tresult := TCont (w : tworld) (ev : tevent) | TBad | TStop.

(** traceHandleFlowCmd, cmdFlowLb.c:664-695.  strdup(NULL) is a bad use.
    Replies written by writeReply end with a 0. *)
Definition traceRequest (L : libc) (P : printer) (w : tworld) (c : flowcmd) : tresult :=
  let reply (m : string) := TCont w (Answer (str m ++ [0])) in
  match c_action c with
  | None => TStop
  | Some act =>
      if streq act (str "trace-set") then
        match c_name c with
        | None => TBad
        | Some n =>
            let names := x_names w ++ [Some n] in
            match flowDefine L (x_set w) (cmdArgs c n (zlen names)) with
            | Ok (None, set) => TCont (mkTW names set (x_free w) (x_pk w)) NoAnswer
            | Ok (Some e, set) => TCont (mkTW names set (x_free w) (x_pk w)) (Answer (str e ++ [0]))
            | _ => TStop
            end
        end
      else if streq act (str "trace-delete") then
        match c_name c with
        | None => reply "FAIL: no name"%string
        | Some n =>
            let (f, set) := flowDelete (x_set w) n in
            match f with
            | None => reply "OK"%string
            | Some f => TCont (mkTW (x_names w) set (f_ref f) (x_pk w)) NoAnswer
            end
        end
      else if streq act (str "trace-list") then
        match flowSetPrint P (x_set w) (c_name c) with
        | Ok s => TCont w (Answer s)
        | _ => TStop
        end
      else if streq act (str "trace-list-names") then TCont w (Answer (flowSetPrintNames (x_set w)))
      else reply "FAIL: action unknown"%string
  end.

(** The packet handler up to the lookup, cmdFlowLb.c:93-140: fragments other
    than the first are not looked up.  Promiscuous ping is on for trace flows
    (289-290). *)
Definition traceLookup (w : tworld) (id eth : Z) (data : list Z) : tresult :=
  match getHashKey (S (length data)) 0 eth data with
  | Ok None => TCont w Missed
  | Ok (Some (rc, k, _)) =>
      if Z.land rc 3 =? 2 then TCont w Missed
      else
        match flowLookup true (x_set w) k eth (Some data) 0 with
        | Ok (a, _) =>
            if a =? 0 then TCont w Missed
            else TCont (mkTW (x_names w) (x_set w) (x_free w) (x_pk w ++ [mkFd id a eth data])) Found
        | _ => TStop
        end
  | _ => TStop
  end.

Definition isFd (id : Z) (p : found) : bool := fd_id p =? id.

(** One step.  None: it cannot be taken now (the flow thread handles one
    request at a time; a packet is identified by a number). *)
Definition tstep (L : libc) (P : printer) (w : tworld) (m : tmove) : option tresult :=
  match m with
  | TRequest c => if x_free w =? 0 then Some (traceRequest L P w c) else None
  | TFree =>
      if x_free w =? 0 then None
      else match nameAt w (x_free w) with
           | None => Some TBad
           | Some _ => Some (TCont (mkTW (zupd (x_names w) (x_free w - 1) None) (x_set w) 0 (x_pk w)) (Answer (str "OK" ++ [0])))
           end
  | TLookup id eth data => if existsb (isFd id) (x_pk w) then None else Some (traceLookup w id eth data)
  | TWrite id =>
      match find (isFd id) (x_pk w) with
      | None => None
      | Some p =>
          match nameAt w (fd_ref p), printIcmp (fd_eth p) (fd_data p) with
          | None, _ => Some TBad
          | Some n, Ok t => Some (TCont (mkTW (x_names w) (x_set w) (x_free w) (filter (fun q => negb (isFd id q)) (x_pk w))) (Wrote n t))
          | _, _ => Some TStop
          end
      end
  end.
