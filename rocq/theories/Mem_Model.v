(** The memory of flows and flow requests: what is allocated and freed by
    src/lib/flow.c:60-337, src/lib/match.c:55-67, 117-130, src/lib/argv.c:11-51,
    src/nfqlb/remoteCmd.c:12-85, and the loop of the flow server with its streams
    and descriptors, src/nfqlb/cmdFlowLb.c:484-568.

    A block is an address with what it is for; freeing or using an address that is
    not allocated is UB, freeing NULL (0) does nothing.  realloc gives another block.
    Allocation never fails (the program dies, except in strdup of remoteCmd.c).
    The nodes of a set of ports live in the memory of Rangeset_Model; what is left
    of them when the set is freed is kept in [m_left]. *)
From Coq Require Import String.
From Verif Require Import Base Cstr_Model Util_Model Rangeset_Model Match_Model Flow_Model Remote_Model.

(** Sets of flows; arrays of n pointers; flows with their parts; strings and
    argument vectors of a request; streams; descriptors *)
Inductive tag :=
| TSet | TArr (n : Z) | TFlow | TProto | TCidrs | TPorts | TMatch | TItems | TName
| TText | TArgv | TFile | TConn.
Record mem := mkMem { m_live : Z -> option tag; m_next : Z; m_left : list Rangeset_Model.heap }.
Definition mem0 : mem := mkMem (fun _ => None) 1 [].

Definition mput (f : Z -> option tag) (p : Z) (v : option tag) : Z -> option tag := fun i => if i =? p then v else f i.
Definition malloc (m : mem) (t : tag) : Z * mem := (m_next m, mkMem (mput (m_live m) (m_next m) (Some t)) (m_next m + 1) (m_left m)).
Definition mfree (m : mem) (p : Z) : outcome mem :=
  if p =? 0 then Ok m
  else match m_live m p with None => UB | Some _ => Ok (mkMem (mput (m_live m) p None) (m_next m) (m_left m)) end.
Definition touch (m : mem) (p : Z) : outcome unit :=
  if p =? 0 then Ok tt else match m_live m p with None => UB | Some _ => Ok tt end.
(** a[i] = .. for an array of pointers *)
Definition put_at (m : mem) (a i : Z) : outcome unit :=
  match m_live m a with Some (TArr n) => if (0 <=? i) && (i <? n) then Ok tt else UB | _ => UB end.
Definition realloc (m : mem) (p : Z) (t : tag) : outcome (Z * mem) := do m <- mfree m p; Ok (malloc m t).

(** ** Flows *)

(** struct Flow, flow.c:32-44: the addresses of its parts, 0 is NULL *)
Record mflow := mkMF {
  x_self : Z; x_name : Z; x_text : chars; x_ref : Z; x_udpencap : Z; x_proto : Z;
  x_dports : option (Z * rset); x_sports : option (Z * rset); x_dsts : Z; x_srcs : Z; x_match : option (Z * Z) }.
Record mset := mkMS { s_self : Z; s_arr : Z; s_flows : list mflow }.

(** rangeSetDestroy, rangeset.c:68-75; a set has fewer than [next] nodes *)
Definition portsFree (m : mem) (s : option (Z * rset)) : outcome mem :=
  match s with
  | None => Ok m
  | Some (p, t) =>
      do _ <- touch m p;
      do h <- rangeSetDestroy (Z.to_nat (next t)) t;
      do m <- mfree m p; Ok (mkMem (m_live m) (m_next m) (h :: m_left m))
  end.
(** matchDestroy, match.c:62-68 *)
Definition matchFree (m : mem) (s : option (Z * Z)) : outcome mem :=
  match s with None => Ok m | Some (p, items) => do _ <- touch m p; do m <- mfree m items; mfree m p end.
(** flowFree, flow.c:73-85 *)
Definition flowFree (m : mem) (x : mflow) : outcome mem :=
  do _ <- touch m (x_self x);
  do m <- mfree m (x_proto x);
  do m <- mfree m (x_dsts x);
  do m <- mfree m (x_srcs x);
  do m <- portsFree m (x_dports x);
  do m <- portsFree m (x_sports x);
  do m <- matchFree m (x_match x);
  do m <- mfree m (x_name x);
  mfree m (x_self x).

(** flowSetCreate, flow.c:60-68 *)
Definition flowSetCreate (m : mem) : mset * mem :=
  let (s, m) := malloc m TSet in let (a, m) := malloc m (TArr 1) in (mkMS s a [], m).
(** flowSetDelete, flow.c:87-98 *)
Fixpoint freeAll (m : mem) (l : list mflow) : outcome mem :=
  match l with [] => Ok m | x :: r => do m <- flowFree m x; freeAll m r end.
Definition flowSetDelete (m : mem) (s : mset) : outcome mem :=
  do _ <- touch m (s_self s); do _ <- touch m (s_arr s);
  do m <- freeAll m (s_flows s); do m <- mfree m (s_arr s); mfree m (s_self s).

(** The parts of a new flow, flow.c:233-271; false: BAILOUT *)
Definition stage := mem -> mflow -> outcome (mem * mflow * bool).
Definition andthen (s1 s2 : stage) : stage :=
  fun m x => do r <- s1 m x; let '(m, x, ok) := r in if ok : bool then s2 m x else Ok (m, x, false).
Definition set_proto (x : mflow) (p : Z) := mkMF (x_self x) (x_name x) (x_text x) (x_ref x) (x_udpencap x) p (x_dports x) (x_sports x) (x_dsts x) (x_srcs x) (x_match x).
Definition set_dports (x : mflow) p := mkMF (x_self x) (x_name x) (x_text x) (x_ref x) (x_udpencap x) (x_proto x) p (x_sports x) (x_dsts x) (x_srcs x) (x_match x).
Definition set_sports (x : mflow) p := mkMF (x_self x) (x_name x) (x_text x) (x_ref x) (x_udpencap x) (x_proto x) (x_dports x) p (x_dsts x) (x_srcs x) (x_match x).
Definition set_dsts (x : mflow) (p : Z) := mkMF (x_self x) (x_name x) (x_text x) (x_ref x) (x_udpencap x) (x_proto x) (x_dports x) (x_sports x) p (x_srcs x) (x_match x).
Definition set_srcs (x : mflow) (p : Z) := mkMF (x_self x) (x_name x) (x_text x) (x_ref x) (x_udpencap x) (x_proto x) (x_dports x) (x_sports x) (x_dsts x) p (x_match x).
Definition set_match (x : mflow) p := mkMF (x_self x) (x_name x) (x_text x) (x_ref x) (x_udpencap x) (x_proto x) (x_dports x) (x_sports x) (x_dsts x) (x_srcs x) p.
Definition set_name (x : mflow) (p : Z) (t : chars) := mkMF (x_self x) p t (x_ref x) (x_udpencap x) (x_proto x) (x_dports x) (x_sports x) (x_dsts x) (x_srcs x) (x_match x).

(** flow.c:113-140, 233-237 *)
Definition protoStage (v : option (list chars)) : stage := fun m x =>
  match v with
  | None => Ok (m, x, true)
  | Some v => match parseProtocol v with
              | None => Ok (m, x, false)
              | Some _ => let (p, m) := malloc m TProto in Ok (m, set_proto x p, true)
              end
  end.
(** flow.c:238-250 *)
Definition portStage (L : libc) (set : mflow -> option (Z * rset) -> mflow) (v : option chars) : stage := fun m x =>
  match v with
  | None => Ok (m, x, true)
  | Some s =>
      match rangeSetCreateLimited 1 65535 with
      | None => UB
      | Some t =>
          let (p, m) := malloc m TPorts in
          do (t, ok) <- rangeSetAddStr t s;
          if ok : bool then do t <- rangeSetUpdate (sort_nodes L) (S (length s)) t; Ok (m, set x (Some (p, t)), true)
          else Ok (m, set x (Some (p, t)), false)
      end
  end.
(** flow.c:148-204 with 252-261: the block is freed at [bailout] *)
Definition cidrStage (L : libc) (set : mflow -> Z -> mflow) (v : option (list chars)) : stage := fun m x =>
  match v with
  | None => Ok (m, x, true)
  | Some argv =>
      if zlen argv =? 0 then Ok (m, x, false)
      else if 32 <? zlen argv then Ok (m, x, false)
      else
        let (p, m) := malloc m TCidrs in
        do r <- parseAll L argv;
        match r with
        | None => do m <- mfree m p; Ok (m, x, false)
        | Some _ => Ok (m, set x p, true)
        end
  end.
(** flow.c:263-271, matchAdd match.c:118-130 *)
Fixpoint matchLoop (m : mem) (x : mflow) (p items : Z) (l : list chars) : outcome (mem * mflow * bool) :=
  match l with
  | [] => Ok (m, set_match x (Some (p, items)), true)
  | s :: r =>
      do e <- matchParse s;
      match e with
      | inl _ => Ok (m, set_match x (Some (p, items)), false)
      | inr _ => do (items, m) <- realloc m items TItems; matchLoop m x p items r
      end
  end.
Definition matchStage (v : option (list chars)) : stage := fun m x =>
  match v with
  | None => Ok (m, x, true)
  | Some l => let (p, m) := malloc m TMatch in matchLoop m x p 0 l
  end.
(** flow.c:273 *)
Definition nameStage (name : chars) : stage := fun m x => let (p, m) := malloc m TName in Ok (m, set_name x p name, true).
Definition stages (L : libc) (a : fargs) : stage :=
  andthen (protoStage (a_protocols a)) (andthen (portStage L set_dports (a_dports a)) (andthen (portStage L set_sports (a_sports a))
    (andthen (cidrStage L set_dsts (a_dsts a)) (andthen (cidrStage L set_srcs (a_srcs a)) (andthen (matchStage (a_match a)) (nameStage (a_name a))))))).

(** flow.c:282-293: the flow that is replaced *)
Fixpoint swap (x : mflow) (l : list mflow) : option (mflow * list mflow) :=
  match l with
  | [] => None
  | y :: r => if streq (x_text y) (x_text x) then Some (y, x :: r)
              else match swap x r with Some (z, r) => Some (z, y :: r) | None => None end
  end.
(** flowDefine, flow.c:206-312; [sort]: qsort of the pointers; name is not NULL.
    true: no error *)
Definition flowDefine (L : libc) (sort : list mflow -> list mflow) (m : mem) (s : mset) (a : fargs) : outcome (mem * mset * bool) :=
  if MAX_NAME <=? zlen (a_name a) then Ok (m, s, false)
  else
    let (f, m) := malloc m TFlow in
    do r <- stages L a m (mkMF f 0 [] (a_ref a) (a_udpencap a) 0 None None 0 0 None);
    let '(m, x, ok) := r in
    if ok : bool then
      do _ <- touch m (s_self s); do _ <- touch m (s_arr s);
      match swap x (s_flows s) with
      | Some (old, l) =>
          do m <- flowFree m old; Ok (m, mkMS (s_self s) (s_arr s) (sort l), true)
      | None =>
          let n := zlen (s_flows s) + 1 in
          do _ <- put_at m (s_arr s) (n - 1);
          do (arr, m) <- realloc m (s_arr s) (TArr (n + 1));
          do _ <- put_at m arr n;
          Ok (m, mkMS (s_self s) arr (sort (s_flows s ++ [x])), true)
      end
    else do m <- flowFree m x; Ok (m, s, false).

(** flowDelete, flow.c:314-337 *)
Fixpoint take (name : chars) (l : list mflow) : option (mflow * list mflow) :=
  match l with
  | [] => None
  | y :: r => if streq (x_text y) name then Some (y, r)
              else match take name r with Some (z, r) => Some (z, y :: r) | None => None end
  end.
Definition flowDelete (m : mem) (s : mset) (name : chars) : outcome (mem * mset) :=
  do _ <- touch m (s_self s); do _ <- touch m (s_arr s);
  match take name (s_flows s) with
  | None => Ok (m, s)
  | Some (x, l) =>
      do m <- flowFree m x;
      do _ <- put_at m (s_arr s) (zlen l);
      Ok (m, mkMS (s_self s) (s_arr s) l)
  end.

(** A lookup, or the listing, reads all of it: flow.c:339-356, 434-456, 590-640. *)
Fixpoint each (m : mem) (l : list Z) : outcome unit := match l with [] => Ok tt | p :: r => do _ <- touch m p; each m r end.
Definition parts (x : mflow) : list Z :=
  [x_self x; x_name x; x_proto x; x_dsts x; x_srcs x] ++ match x_dports x with Some (p, _) => [p] | None => [] end
  ++ match x_sports x with Some (p, _) => [p] | None => [] end ++ match x_match x with Some (p, i) => [p; i] | None => [] end.
Definition look (m : mem) (s : mset) : outcome unit := each m (s_self s :: s_arr s :: flat_map parts (s_flows s)).

(** Calls on a set *)
Inductive mop := MDefine (a : fargs) | MDelete (name : chars) | MLook.
Definition mstep (L : libc) (sort : list mflow -> list mflow) (m : mem) (s : mset) (o : mop) : outcome (mem * mset) :=
  match o with
  | MDefine a => do r <- flowDefine L sort m s a; let '(m, s, _) := r in Ok (m, s)
  | MDelete n => flowDelete m s n
  | MLook => do _ <- look m s; Ok (m, s)
  end.
Fixpoint mrun (L : libc) (sort : list mflow -> list mflow) (m : mem) (s : mset) (l : list mop) : outcome (mem * mset) :=
  match l with [] => Ok (m, s) | o :: r => do (m, s) <- mstep L sort m s o; mrun L sort m s r end.

(** ** Requests *)

(** struct FlowCmd: the addresses of action, name, target, protocols, dports,
    sports, dsts, srcs, match; 0 is NULL *)
Record mcmd := mkMC { d_val : flowcmd; d_adr : list Z }.
Definition cmd0 : mcmd := mkMC empty_cmd (repeat 0 9).
(** freeFlowCmd, remoteCmd.c:73-85 *)
Fixpoint freeList (m : mem) (l : list Z) : outcome mem := match l with [] => Ok m | p :: r => do m <- mfree m p; freeList m r end.
Definition freeFlowCmd (m : mem) (c : mcmd) : outcome (mem * mcmd) := do m <- freeList m (d_adr c); Ok (m, cmd0).

(** The field of a line, and how it is stored: strdup, or mkargv with this delimiter *)
Definition field (f : chars) : option (nat * option chars) :=
  if streq f (str "action") then Some (0%nat, None) else if streq f (str "name") then Some (1%nat, None)
  else if streq f (str "target") then Some (2%nat, None) else if streq f (str "protocols") then Some (3%nat, Some (str ", "))
  else if streq f (str "dports") then Some (4%nat, None) else if streq f (str "sports") then Some (5%nat, None)
  else if streq f (str "dsts") then Some (6%nat, Some (str ", ")) else if streq f (str "srcs") then Some (7%nat, Some (str ", "))
  else if streq f (str "match") then Some (8%nat, Some (str ",")) else None.
(** mkargv, argv.c:11-51: the copy of pass 1 is freed *)
Definition argvBlock (m : mem) (s d : chars) : outcome (Z * mem) :=
  match s with
  | [] => Ok (0, m)
  | _ =>
      let (tmp, m) := malloc m TText in
      do r <- mkargv (Some s) (Some d);
      do m <- mfree m tmp;
      match r with None => Ok (0, m) | Some _ => Ok (malloc m TArgv) end
  end.
Definition setAt (l : list Z) (i : nat) (v : Z) : list Z := firstn i l ++ v :: skipn (S i) l.
(** remoteCmd.c:33-68 *)
Definition setField (m : mem) (c : mcmd) (f arg : chars) : outcome (mem * mcmd) :=
  do v <- set_field (d_val c) f arg;
  match field f with
  | None => Ok (m, mkMC v (d_adr c))
  | Some (i, d) =>
      if nth i (d_adr c) 0 =? 0 then
        do (p, m) <- match d with None => Ok (malloc m TText) | Some d => argvBlock m arg d end;
        Ok (m, mkMC v (setAt (d_adr c) i p))
      else Ok (m, mkMC v (d_adr c))
  end.
(** readFlowCmd, remoteCmd.c:12-71; false is -1 *)
Fixpoint readLoop (fuel : nat) (m : mem) (c : mcmd) (s : chars) : outcome (mem * mcmd * bool) :=
  match s with
  | [] => do (m, c) <- freeFlowCmd m c; Ok (m, c, false)
  | _ =>
      match fuel with
      | O => Fuel
      | S fuel' =>
          let (line, rest) := fgets (Z.to_nat (MAX_CMD_LINE - 1)) s in
          let buf := trim_nl (cstring line) in
          if prefix (str "eoc:") buf then Ok (m, c, true)
          else match split_at 58 buf with
               | None => do (m, c) <- freeFlowCmd m c; Ok (m, c, false)
               | Some (f, arg) => do (m, c) <- setField m c f arg; readLoop fuel' m c rest
               end
      end
  end.
Definition readCmd (m : mem) (s : chars) : outcome (mem * mcmd * bool) := readLoop (length s) m cmd0 s.

(** ** The flow server, cmdFlowLb.c:484-568 *)

(** A stream: its block and its descriptor *)
Definition closeStream (m : mem) (f : option (Z * Z)) : outcome mem :=
  match f with None => Ok m | Some (b, d) => do m <- mfree m b; mfree m d end.
(** A connection: whether accept succeeds, whether the first fdopen does, what the
    client sends, whether dup and the second fdopen succeed *)
Record conn := mkConn { n_accept : bool; n_in : bool; n_text : chars; n_dup : bool; n_out : bool }.
Record server := mkSv { v_mem : mem; v_set : mset; v_cmd : mcmd; v_in : option (Z * Z); v_out : option (Z * Z) }.
Definition writes (a : chars) : bool := prefix (str "trace-") a || streq a (str "list") || streq a (str "list-names").
Definition openOut (m : mem) (k : conn) : mem * option (Z * Z) :=
  if n_dup k then
    let (d, m) := malloc m TConn in
    if n_out k then let (b, m) := malloc m TFile in (m, Some (b, d)) else (m, None)
  else (m, None).
(** One round.  [calls]: what cmd_set, cmd_delete and flowSetPrint do with the set *)
Definition serve (L : libc) (sort : list mflow -> list mflow) (calls : flowcmd -> list mop) (v : server) (k : conn) : outcome server :=
  do m <- closeStream (v_mem v) (v_in v);
  do m <- closeStream m (v_out v);
  if negb (n_accept k) then Ok (mkSv m (v_set v) (v_cmd v) None None)
  else
    let (cd, m) := malloc m TConn in
    if negb (n_in k) then do m <- mfree m cd; Ok (mkSv m (v_set v) (v_cmd v) None None)
    else
      let (b, m) := malloc m TFile in
      do (m, _) <- freeFlowCmd m (v_cmd v);
      do r <- readCmd m (n_text k);
      let '(m, c, ok) := r in
      let over := Ok (mkSv m (v_set v) c (Some (b, cd)) None) in
      if negb ok then over
      else match c_action (d_val c) with
           | None => over
           | Some a =>
               let (m, out) := if writes a then openOut m k else (m, None) in
               do (m, s) <- mrun L sort m (v_set v) (calls (d_val c));
               Ok (mkSv m s c (Some (b, cd)) out)
           end.
Fixpoint serves (L : libc) (sort : list mflow -> list mflow) (calls : flowcmd -> list mop) (v : server) (l : list conn) : outcome server :=
  match l with [] => Ok v | k :: r => do v <- serve L sort calls v k; serves L sort calls v r end.
Definition server0 : server := let (s, m) := flowSetCreate mem0 in mkSv m s cmd0 None None.
