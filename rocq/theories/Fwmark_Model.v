(** The fwmark command, src/nfqlb/cmdFwmark.c, with parseAddress and parseProto of
    src/lib/iputils.c.

    getaddrinfo is the parameter [gai]: the bytes of the socket address for a host and a port, with
    the hints of parseAddress.  The options were parsed (cmd.c). *)
From Coq Require Import String.
From Verif Require Import Base Cstr_Model IpKey_Model Maglev_Model Flow_Model.

Notation getaddrinfo := (chars -> chars -> option (list Z)).

(** strrchr(s, c): the text before the last c and the text after it *)
Fixpoint split_last (c : Z) (s : chars) : option (chars * chars) :=
  match s with
  | [] => None
  | x :: s' =>
      match split_last c s' with
      | Some (a, b) => Some (x :: a, b)
      | None => if x =? c then Some ([], s') else None
      end
  end.

(** parseAddress, iputils.c:464-510: None is -1.  The result is copied to the buffer of the
    caller (memcpy, 496); only the tcp: part is modelled, [adr] is what follows "tcp:". *)
Definition parseTcp (gai : getaddrinfo) (adr : chars) : option (list Z) :=
  match (match adr with
         | 91 :: r => match split_at 93 r with Some (h, 58 :: p) => Some (h, p) | _ => None end
         | _ => split_at 58 adr
         end) with
  | None => None
  | Some (h, p) => if (atoi p <? 0) || (65535 <? atoi p) then None else gai h p
  end.

(** The 28 bytes of a struct sockaddr_in6; None is indeterminate *)
Notation buffer := (list (option Z)).
Definition uninit : buffer := repeat None 28.
Definition memcpy (buf : buffer) (b : list Z) : outcome buffer :=
  if 28 <? zlen b then UB else Ok (map Some b ++ skipn (length b) buf).
Fixpoint determinate (l : buffer) : outcome (list Z) :=
  match l with
  | [] => Ok []
  | Some x :: r => do r' <- determinate r; Ok (x :: r')
  | None :: _ => UB
  end.
(** sin6_addr is at offset 8, sin6_port at offset 2. *)
Definition sin6_addr (b : buffer) : outcome (list Z) := determinate (firstn 16 (skipn 8 b)).
Definition sin6_port (b : buffer) : outcome (list Z) := determinate (firstn 2 (skipn 2 b)).

(** adrParse, cmdFwmark.c:85-106 *)
Definition adrParse (gai : getaddrinfo) (s : chars) (buf : buffer) : outcome buffer :=
  if 60 <? zlen s then Die
  else
    do t <- (if existsb (Z.eqb 91) s then Ok s
             else match split_last 58 s with
                  | None => Die
                  | Some (a, p) => Ok (str "[::ffff:" ++ a ++ str "]:" ++ p)
                  end);
    match parseTcp gai t with
    | None => Die
    | Some b => memcpy buf b
    end.

(** parseProto, iputils.c:529-538 *)
Definition parseProto (s : chars) : Z :=
  if caseeq (str "tcp") s then 6
  else if caseeq (str "udp") s then 17
  else if caseeq (str "sctp") s then 132
  else 0.

(** What is printed: the hash, and lookupindex, activeindex and fwmark if there is shared
    memory *)
Record printed := mkOut { o_hash : Z; o_table : option (Z * Z * Z) }.

(** cmdFwmark.c:65-80.  [shm]: the table, or None if it cannot be mapped *)
Definition printMark (hash : Z) (shm : option (option mag)) : outcome printed :=
  match shm with
  | None => Ok (mkOut hash None)
  | Some None => Die
  | Some (Some t) =>
      if mM t =? 0 then UB
      else
        let index := hash mod mM t in
        do active <- aget (mlookup t) index;
        do fw <- (if 0 <=? active then aget (mactive t) active else Ok (-1));
        Ok (mkOut hash (Some (index, active, fw)))
  end.

(** cmdFwmark, cmdFwmark.c:19-83; [mode] is the text of --hash_mode, by default "1".  There is one
    buffer for both addresses. *)
Definition cmdFwmark (gai : getaddrinfo) (src dst : chars) (proto mode : option chars) (shm : option (option mag)) : outcome printed :=
  do b1 <- adrParse gai src uninit;
  do sa <- sin6_addr b1;
  do sp <- sin6_port b1;
  do b2 <- adrParse gai dst b1;
  do da <- sin6_addr b2;
  do dp <- sin6_port b2;
  let hash_mode := u32 (atoi (match mode with None => str "1" | Some m => m end)) in
  match proto with
  | Some p =>
      let n := parseProto p in
      if n =? 0 then Die
      else printMark (hashKey (mkKey sa da ([0; 0; n; 0] ++ sp ++ dp)) hash_mode) shm
  | None => printMark (hashKeyAddresses (mkKey sa da ([0; 0; 0; 0] ++ sp ++ dp))) shm
  end.
