(** Small utilities: the command table (src/lib/cmd.c), argument splitting
    (src/lib/argv.c), the trace selection (src/nfqlb/cmdTrace.c) and the
    address utility (src/ipu/ipu.c). *)
From Coq Require Import String.
From Verif Require Import Base Cstr_Model.

(** ** src/lib/cmd.c *)

(** MAX_COMMANDS, cmd.c:13-15 (no makefile overrides it) *)
Definition MAX_COMMANDS : Z := 20.

(** struct Cmd, cmd.c:17-20: the name and the handler.  The handler is
    abstract. *)
Notation cmd F := (chars * F)%type.

(** addCmd, cmd.c:22-30.  The array [cmd] (21 slots, zero initialised) is
    the list of its entries before the first NULL name; [while (c->name)]
    stops there.  A command beyond the limit is dropped without notice. *)
Definition addCmd {F} (t : list (cmd F)) (name : chars) (fn : F) : list (cmd F) :=
  if zlen t <? MAX_COMMANDS then t ++ [(name, fn)] else t.

(** The constructors run before main: one addCmd for each registration in
    the order the linker chose. *)
Definition register {F} (l : list (cmd F)) : list (cmd F) :=
  fold_left (fun t c => addCmd t (fst c) (snd c)) l [].

(** handleCmd, cmd.c:32-51: help (the names listed), a call of a handler,
    or an error.  [argv] is argv[1..]; argc = 1 + length. *)
Inductive handled (F : Type) :=
| Help (names : list chars)
| Call (fn : F) (argv : list chars)
| Unknown.
Arguments Help {F} names.
Arguments Call {F} fn argv.
Arguments Unknown {F}.

(** cmd.c:44-47 *)
Fixpoint findCmd {F} (t : list (cmd F)) (name : chars) : option F :=
  match t with
  | [] => None
  | (n, f) :: t' => if streq name n then Some f else findCmd t' name
  end.

Definition handleCmd {F} (t : list (cmd F)) (argv : list chars) : handled F :=
  match argv with
  | [] => Help (map fst t)
  | a :: _ =>
      if streq a (str "-h") || streq a (str "--help") then Help (map fst t)
      else match findCmd t a with
           | Some f => Call f argv
           | None => Unknown
           end
  end.

(** The names nfqlb registers: cmdConfig.c:142-144, cmdFlow.c:184-187,
    cmdFlowLb.c:371, cmdFwmark.c:109, cmdLb.c:248, cmdShm.c:153-157,
    cmdTrace.c:264-269. *)
Definition nfqlb_names : list chars :=
  map str ["activate"; "deactivate"; "version";
           "flow-set"; "flow-delete"; "flow-list"; "flow-list-names";
           "flowlb"; "fwmark"; "lb";
           "init"; "delete"; "show"; "stats"; "primebelow";
           "trace"; "loglevel"; "trace-flow-set"; "trace-flow-delete";
           "trace-flow-list"; "trace-flow-list-names"]%string.

(** ** src/lib/argv.c *)

(** mkargv, argv.c:11-51.  NULL arguments are [None]; malloc is assumed to
    succeed (else die).  Pass 1 (20-28) counts the tokens, pass 2 (33-48)
    stores them with leading blanks skipped (43-44). *)
Definition trim (t : chars) : chars := skip (fun c => c =? 32) t.

Definition mkargv (s delim : option chars) : outcome (option (list chars)) :=
  match s, delim with
  | Some s, Some d =>
      match s, d with
      | [], _ => Ok None
      | _, [] => Ok None
      | _, _ =>
          do l <- toks (length s) d s;
          if zlen l =? 0 then Ok None else Ok (Some (map trim l))
      end
  | _, _ => Ok None
  end.

(** ** src/nfqlb/cmdTrace.c *)

(** TRACE_LOG log.h:41; TRACE_* nfqlb.h:95-100; table cmdTrace.c:15-27 *)
Definition traceEvent : list (chars * Z) :=
  [(str "log", 1); (str "packet", 2); (str "frag", 4); (str "flow-conf", 8);
   (str "sctp", 16); (str "target", 32); (str "flows", 64)].

(** str2mask, cmdTrace.c:13-35 *)
Fixpoint str2mask_in (t : list (chars * Z)) (name : chars) : Z :=
  match t with
  | [] => 0
  | (n, m) :: t' => if streq name n then m else str2mask_in t' name
  end.
Definition str2mask (name : chars) : Z := str2mask_in traceEvent name.

(** cmdTrace.c:60-66: the mask for --selection *)
Definition traceSelection (sel : chars) : outcome Z :=
  do l <- toks (length sel) (str ",") sel;
  Ok (fold_left (fun m t => Z.lor m (str2mask t)) l 0).

(** cmdTrace.c:67-69: the mask for --mask (uint32_t mask = strtol) *)
Definition traceMask (opt : chars) : Z := u32 (fst (strtol 0 opt)).

(** cmdTrace.c:55-69: which of the two *)
Definition cmdTrace_mask (maskOpt selOpt : option chars) : outcome Z :=
  match maskOpt, selOpt with
  | None, None => Die
  | Some _, Some _ => Die
  | None, Some sel => traceSelection sel
  | Some m, None => Ok (traceMask m)
  end.

(** ** src/ipu/ipu.c *)

(** cmdLinklocal, ipu.c:29-40; ether_aton() (26) and the printing (41-43)
    are library functions: the input is the six octets, the output the 16. *)
Definition linklocal (mac : list Z) : outcome (list Z) :=
  match mac with
  | [m0; m1; m2; m3; m4; m5] =>
      Ok [254; 128; 0; 0; 0; 0; 0; 0; Z.lxor m0 2; m1; m2; 255; 254; m3; m4; m5]
  | _ => UB
  end.

(** Signed int arithmetic of ipu.c.  [wrap = false] is the C standard: a
    result outside int is undefined; [wrap = true] is what a compiler run
    with -fwrapv (or not exploiting the overflow) computes. *)
Definition sint (wrap : bool) (x : Z) : outcome Z :=
  if (-2147483648 <=? x) && (x <=? 2147483647) then Ok x
  else if wrap then Ok (s32 x) else UB.

(** x << k on int, 0 <= k < 32 *)
Definition sshl (wrap : bool) (x k : Z) : outcome Z :=
  if (k <? 0) || (32 <=? k) then UB else sint wrap (Z.shiftl x k).

(** ~((1 << k) - 1) converted to uint32_t, ipu.c:104, 169, 226 *)
Definition clearmask (wrap : bool) (k : Z) : outcome Z :=
  do p <- sshl wrap 1 k;
  do q <- sint wrap (p - 1);
  Ok (u32 (Z.lnot q)).

(** cmdMakeip, ipu.c:91-152, after parsing: [bits] 32 or 128, the slots s1
    s2 (75-83), net and host (86-87, ints), [a] the low 32 bits of the
    address in host order (112, 143).  The result is the new low word; the
    other words of an IPv6 address stay.  [template] = --ipv6template
    given.  [subnet]: the --subnet number; the second result is the prefix
    length printed (122-135, 147-151). *)
Definition makeip (wrap : bool) (bits s1 s2 net host a : Z) (template : bool)
    (subnet : option Z) : outcome (Z * option Z) :=
  if (bits =? 128) && (s1 <? 97) then Die
  else if (bits =? 128) && template then Die
  else if (s2 <? s1) || (bits <? s2) || (s1 <=? 0) then Die
  else
    do m1 <- sshl wrap 1 (s2 - s1);
    if u32 m1 <=? u32 net then Die
    else
      do m2 <- sshl wrap 1 (bits - s2);
      if u32 m2 <=? u32 host then Die
      else
        do mask <- clearmask wrap (bits - s1);
        do n <- sshl wrap net (bits - s2);
        let a' := u32 (u32 (Z.land a mask + n) + host) in
        let off := if template then 96 else 0 in
        Ok (a', match subnet with
                | None => None
                | Some k => Some (if k =? 1 then s1 + off else s2 + off)
                end).

(** mask_ipv6, ipu.c:157-171; the address is its four 32-bit words in host
    order.  The loop runs at most 4 times; [i] is the word index. *)
Fixpoint mask_loop (n : nat) (w : list Z) (k i : Z) : outcome (list Z * Z * Z) :=
  if k <? 32 then Ok (w, k, i)
  else match n with
       | O => Fuel
       | S n' => do w' <- aset w i 0; mask_loop n' w' (k - 32) (i - 1)
       end.
Definition mask_ipv6 (wrap : bool) (w : list Z) (prefix : Z) : outcome (list Z) :=
  if 128 <? prefix then Die (* assert *)
  else
    do (w', k, i) <- mask_loop 5 w (128 - prefix) 3;
    if k =? 0 then Ok w'
    else
      do mask <- clearmask wrap k;
      do x <- aget w' i;
      aset w' i (Z.land x mask).

(** An address: IPv4 or IPv6 (four words, host order). *)
Inductive ipaddr := V4 (a : Z) | V6 (w : list Z).

Fixpoint words_eq (a b : list Z) : bool :=
  match a, b with
  | [], [] => true
  | x :: a', y :: b' => (x =? y) && words_eq a' b'
  | _, _ => false
  end.

(** cmdContains, ipu.c:194-231, after parsing the addresses: s the prefix
    (int); result true = exit code 0 (contained).  The family test looks
    for ':' in the text (198, 200, 216). *)
Definition contains (wrap : bool) (cidr : ipaddr) (s : Z) (addr : ipaddr) : outcome bool :=
  if s =? 0 then Ok true
  else
    match cidr with
    | V6 c =>
        match addr with
        | V4 _ => Ok false
        | V6 a =>
            if (s <? 0) || (128 <? s) then Die
            else
              do a' <- mask_ipv6 wrap a s;
              do c' <- mask_ipv6 wrap c s;
              Ok (words_eq a' c')
        end
    | V4 c =>
        match addr with
        | V6 _ => Ok false
        | V4 a =>
            if (s <? 0) || (32 <? s) then Die
            else
              do mask <- clearmask wrap (32 - s);
              Ok (Z.land a mask =? Z.land c mask)
        end
    end.
