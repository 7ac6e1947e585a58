(** The commands of ipu from the words of their lines to what they print and
    the status they end with: src/ipu/ipu.c:13-232.  The arithmetic is in
    Util_Model.

    inet_pton, inet_ntop and ether_aton are the C library's.  What is printed
    to stderr, and the help, are left out. *)
From Coq Require Import String.
From Verif Require Import Base Cstr_Model Util_Model Opt_Model Shm_Model.

(** The library: inet_pton and inet_ntop for AF_INET and AF_INET6, ether_aton;
    addresses are bytes in network order. *)
Record ilib := mkI {
  i_pton4 : chars -> option (list Z); i_pton6 : chars -> option (list Z);
  i_ntop4 : list Z -> chars; i_ntop6 : list Z -> chars;
  i_aton : chars -> option (list Z) }.

(** A command ends with a status and has printed to stdout; die() ends it with 1. *)
Definition iended := outcome (Z * chars).

(** parseOptionsOrDie, cmd.c:139-145 *)
Definition ipuOptions (opts : list opt) (ws : list chars) (k : list (option chars) -> list chars -> iended) : iended :=
  do r <- parseOptions opts ws;
  match r with
  | Parsed vals rest => k vals rest
  | Help => Ok (0, [])
  | Refused => Ok (1, [])
  end.

(** ipu.c:13-19, 53-66, 176-183 *)
Definition linklocalOpts : list opt := [flag "help"].
Definition makeipOpts : list opt := [flag "help"; must "cidr"; val "net" "0"; val "host" "0"; text "subnet"; text "ipv6template"].
Definition containsOpts : list opt := [flag "help"; must "cidr"].

(** ntohl and htonl of four bytes *)
Definition fromBytes (b : list Z) : Z :=
  match b with [p; q; r; s] => p * 16777216 + q * 65536 + r * 256 + s | _ => 0 end.
Definition toBytes (x : Z) : list Z := [x / 16777216; x / 65536 mod 256; x / 256 mod 256; x mod 256].
Definition hasColon (s : chars) : bool := match split_at 58 s with Some _ => true | None => false end.
Definition died (o : iended) : iended := match o with Die => Ok (1, []) | _ => o end.

(** cmdLinklocal, ipu.c:13-45 *)
Definition cmdLinklocal (L : ilib) (ws : list chars) : iended :=
  ipuOptions linklocalOpts ws (fun _ rest =>
    match rest with
    | [] => Ok (1, [])
    | w :: _ =>
        match i_aton L w with
        | None => Ok (1, [])
        | Some mac => do a <- linklocal mac; Ok (0, i_ntop6 L a ++ [10])
        end
    end).

(** cmdMakeip, ipu.c:47-154.  The address is read (110, 141) after the masks are
    computed (104); die() in between is the same as there. *)
Definition printed (t : chars) (len : option Z) : chars :=
  t ++ match len with Some n => 47 :: sdec n | None => [] end ++ [10].
Definition makeipText (wrap : bool) (L : ilib) (cidr net host : chars) (subnet template : option chars) : iended :=
  if 52 <? zlen cidr then Die                                     (* 69 *)
  else match split_at 47 cidr with
  | None => Die                                                   (* 73 *)
  | Some (addr, r) =>
      let s1 := s32 (fst (strtol 0 r)) in                         (* 75 *)
      let s2 := match split_at 47 r with None => s1 | Some (_, r2) => s32 (fst (strtol 0 r2)) end in (* 77-83 *)
      let bits := if hasColon addr then 128 else 32 in            (* 85 *)
      let sub := match subnet with Some s => Some (atoi s) | None => None end in
      let tpl := match template with Some _ => true | None => false end in
      let make a := makeip wrap bits s1 s2 (atoi net) (atoi host) a tpl sub in (* 86-104 *)
      match (if bits =? 32 then i_pton4 L addr else i_pton6 L addr) with (* 109, 140 *)
      | None => do _ <- make 0; Die
      | Some b =>
          if bits =? 32 then
            do (a, len) <- make (fromBytes b);                    (* 112-113 *)
            match template with
            | None => Ok (0, printed (i_ntop4 L (toBytes a)) len) (* 131-136 *)
            | Some t =>
                match i_pton6 L t with                            (* 118 *)
                | None => Die
                | Some b6 => Ok (0, printed (i_ntop6 L (firstn 12 b6 ++ toBytes a)) len) (* 120-129 *)
                end
            end
          else
            do (a, len) <- make (fromBytes (skipn 12 b));         (* 143-144 *)
            Ok (0, printed (i_ntop6 L (firstn 12 b ++ toBytes a)) len) (* 145-151 *)
      end
  end.
Definition cmdMakeip (wrap : bool) (L : ilib) (ws : list chars) : iended :=
  ipuOptions makeipOpts ws (fun vals _ =>
    match vals with
    | [_; Some cidr; Some net; Some host; subnet; template] => died (makeipText wrap L cidr net host subnet template)
    | _ => UB
    end).

(** cmdContains, ipu.c:173-232.  The lengths of both texts are those of any
    words: nothing is copied into a buffer. *)
Definition words16 (b : list Z) : list Z :=
  [fromBytes (firstn 4 b); fromBytes (firstn 4 (skipn 4 b)); fromBytes (firstn 4 (skipn 8 b)); fromBytes (skipn 12 b)].
Definition containsText (wrap : bool) (L : ilib) (cidr arg : chars) : iended :=
  match split_at 47 cidr with
  | None => Die                                                   (* 192 *)
  | Some (net, r) =>
      let s := atoi r in
      if s =? 0 then Ok (0, [])                                   (* 195 *)
      else if hasColon net then
        if negb (hasColon arg) then Ok (1, [])                    (* 200 *)
        else if (s <? 0) || (128 <? s) then Die
        else match i_pton6 L arg with
             | None => Die
             | Some a =>
                 match i_pton6 L net with
                 | None => Die
                 | Some c => do b <- contains wrap (V6 (words16 c)) s (V6 (words16 a)); Ok (if b then 0 else 1, [])
                 end
             end
      else
        if hasColon arg then Ok (1, [])                           (* 216 *)
        else if (s <? 0) || (32 <? s) then Die
        else match i_pton4 L arg with
             | None => Die
             | Some a =>
                 match i_pton4 L net with
                 | None => Die
                 | Some c => do b <- contains wrap (V4 (fromBytes c)) s (V4 (fromBytes a)); Ok (if b then 0 else 1, [])
                 end
             end
  end.
Definition cmdContains (wrap : bool) (L : ilib) (ws : list chars) : iended :=
  ipuOptions containsOpts ws (fun vals rest =>
    match vals with
    | [_; Some cidr] =>
        match rest with
        | [] => Ok (1, [])
        | arg :: _ => died (containsText wrap L cidr arg)
        end
    | _ => UB
    end).
