(** Flow requests: the server reads them (src/nfqlb/remoteCmd.c), the client
    writes them (src/nfqlb/cmdFlow.c).

    A stream is the list of the bytes on the connection until the writer
    closes it; the socket is trusted to deliver them unchanged.  malloc in
    strdup and mkargv is assumed to succeed (mkargv dies otherwise). *)
From Coq Require Import String.
From Verif Require Import Base Cstr_Model Util_Model.

(** nfqlb.h:44-45 *)
Definition MAX_CMD_LINE : Z := 1024.
Definition MAX_ARG_LEN : Z := 1000.

(** struct FlowCmd, nfqlb.h:56-68; None is NULL; udpencap is an unsigned
    short *)
Record flowcmd := mkFC {
  c_action : option chars; c_name : option chars; c_target : option chars;
  c_priority : Z;
  c_protocols : option (list chars);
  c_dports : option chars; c_sports : option chars;
  c_dsts : option (list chars); c_srcs : option (list chars); c_match : option (list chars);
  c_udpencap : Z }.

(** memset(cmd, 0, sizeof(cmd)), remoteCmd.c:15 *)
Definition empty_cmd : flowcmd :=
  mkFC None None None 0 None None None None None None 0.

(** fgets(buf, size, in) with n = size-1: up to n bytes, ending with the
    first newline; what is left.  (ISO C 7.21.7.2; NULL at the end of the
    stream is handled by the caller.) *)
Fixpoint fgets (n : nat) (s : chars) : chars * chars :=
  match n, s with
  | O, _ => ([], s)
  | _, [] => ([], [])
  | S n', c :: s' =>
      if c =? 10 then ([c], s')
      else let (a, b) := fgets n' s' in (c :: a, b)
  end.

(** The buffer as a string: up to the first 0 ... *)
Definition cstring (s : chars) : chars := fst (span (fun c => negb (c =? 0)) s).
(** ... and up to the first newline, remoteCmd.c:22 *)
Definition trim_nl (s : chars) : chars := fst (span (fun c => negb (c =? 10)) s).

(** strncmp(buf, p, strlen(p)) == 0 *)
Fixpoint prefix (p s : chars) : bool :=
  match p, s with
  | [], _ => true
  | x :: p', y :: s' => (x =? y) && prefix p' s'
  | _, [] => false
  end.

(** "if (cmd->x == NULL) cmd->x = .." *)
Definition keep {A} (old : option A) (new : option A) : option A :=
  match old with Some _ => old | None => new end.
Definition keepo {A} (old : option A) (new : outcome (option A)) : outcome (option A) :=
  match old with Some _ => Ok old | None => new end.

(** remoteCmd.c:33-68 *)
Definition set_field (c : flowcmd) (f arg : chars) : outcome flowcmd :=
  let 'mkFC ac na ta pr ps dp sp ds ss ma ue := c in
  if streq f (str "action") then Ok (mkFC (keep ac (Some arg)) na ta pr ps dp sp ds ss ma ue)
  else if streq f (str "name") then Ok (mkFC ac (keep na (Some arg)) ta pr ps dp sp ds ss ma ue)
  else if streq f (str "target") then Ok (mkFC ac na (keep ta (Some arg)) pr ps dp sp ds ss ma ue)
  else if streq f (str "priority") then Ok (mkFC ac na ta (atoi arg) ps dp sp ds ss ma ue)
  else if streq f (str "protocols") then
    do v <- keepo ps (mkargv (Some arg) (Some (str ", ")));
    Ok (mkFC ac na ta pr v dp sp ds ss ma ue)
  else if streq f (str "dports") then Ok (mkFC ac na ta pr ps (keep dp (Some arg)) sp ds ss ma ue)
  else if streq f (str "sports") then Ok (mkFC ac na ta pr ps dp (keep sp (Some arg)) ds ss ma ue)
  else if streq f (str "dsts") then
    do v <- keepo ds (mkargv (Some arg) (Some (str ", ")));
    Ok (mkFC ac na ta pr ps dp sp v ss ma ue)
  else if streq f (str "srcs") then
    do v <- keepo ss (mkargv (Some arg) (Some (str ", ")));
    Ok (mkFC ac na ta pr ps dp sp ds v ma ue)
  else if streq f (str "match") then
    do v <- keepo ma (mkargv (Some arg) (Some (str ",")));
    Ok (mkFC ac na ta pr ps dp sp ds ss v ue)
  else if streq f (str "udpencap") then Ok (mkFC ac na ta pr ps dp sp ds ss ma (atoi arg mod 65536))
  else Ok c.

(** readFlowCmd, remoteCmd.c:12-71.  None is -1 (the fields read so far are
    freed), Some (cmd, rest) is 0 with the unread bytes.  Every round reads
    at least one byte, so [length s] rounds suffice. *)
Fixpoint read_loop (fuel : nat) (c : flowcmd) (s : chars) : outcome (option (flowcmd * chars)) :=
  match s with
  | [] => Ok None
  | _ =>
      match fuel with
      | O => Fuel
      | S fuel' =>
          let (line, rest) := fgets (Z.to_nat (MAX_CMD_LINE - 1)) s in
          let buf := trim_nl (cstring line) in
          if prefix (str "eoc:") buf then Ok (Some (c, rest))
          else match split_at 58 buf with
               | None => Ok None
               | Some (f, arg) => do c' <- set_field c f arg; read_loop fuel' c' rest
               end
      end
  end.
Definition readFlowCmd (s : chars) : outcome (option (flowcmd * chars)) :=
  read_loop (length s) empty_cmd s.

(** ** The client *)

(** The options of flow-set, cmdFlow.c:14-41.  name and target are required
    by parseOptionsOrDie. *)
Record setopts := mkSO {
  o_name : chars; o_target : chars; o_prio : option chars; o_protocols : option chars;
  o_dsts : option chars; o_srcs : option chars; o_dports : option chars; o_sports : option chars;
  o_match : option chars; o_udpencap : option chars }.

(** strcasestr(s, p) != NULL, p in lower case *)
Definition lower (c : Z) : Z := if (65 <=? c) && (c <=? 90) then c + 32 else c.
Fixpoint casestr (p s : chars) : bool :=
  prefix p (map lower s) || match s with [] => false | _ :: s' => casestr p s' end.

(** fprintf(out, "f:%s\n", v) *)
Definition field_line (f v : chars) : chars := f ++ 58 :: v ++ [10].
Definition opt_line (f : chars) (v : option chars) : chars :=
  match v with Some v => field_line f v | None => [] end.

Definition too_long (o : option chars) : bool :=
  match o with Some v => MAX_ARG_LEN <? zlen v | None => false end.
Definition given (o : option chars) : bool := match o with Some _ => true | None => false end.

(** cmdFlowSet, cmdFlow.c:44-94: what is sent (or die) *)
Definition cmdFlowSet (o : setopts) : outcome chars :=
  if 255 <? zlen (o_target o) then Die
  else if too_long (o_protocols o) || too_long (o_dsts o) || too_long (o_srcs o)
          || too_long (o_dports o) || too_long (o_sports o) || too_long (o_match o) then Die
  else if given (o_udpencap o)
          && match o_protocols o with None => true | Some p => negb (casestr (str "sctp") p) end then Die
  else if (given (o_dports o) || given (o_sports o)) && negb (given (o_protocols o)) then Die
  else
    Ok (field_line (str "action") (str "set") ++
        field_line (str "name") (o_name o) ++
        field_line (str "target") (o_target o) ++
        opt_line (str "priority") (o_prio o) ++
        opt_line (str "protocols") (o_protocols o) ++
        opt_line (str "dsts") (o_dsts o) ++
        opt_line (str "srcs") (o_srcs o) ++
        opt_line (str "dports") (o_dports o) ++
        opt_line (str "sports") (o_sports o) ++
        opt_line (str "match") (o_match o) ++
        opt_line (str "udpencap") (o_udpencap o) ++
        str "eoc:" ++ [10]).

(** cmdFlowDelete, cmdFlow.c:117-121; cmdFlowList, 148-152;
    cmdFlowListNames, 174-177 *)
Definition cmdFlowDelete (name : chars) : chars :=
  field_line (str "action") (str "delete") ++ field_line (str "name") name ++ str "eoc:" ++ [10].
Definition cmdFlowList (name : option chars) : chars :=
  field_line (str "action") (str "list") ++ opt_line (str "name") name ++ str "eoc:" ++ [10].
Definition cmdFlowListNames : chars :=
  field_line (str "action") (str "list-names") ++ str "eoc:" ++ [10].
