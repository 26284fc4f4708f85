(* The helpers around the operating system: reading a file, the process name, making
   directories (fn_file.h:197-223, 253-340, fn_core.h:373-393) and the opening of UDP
   sockets (fn_file.h:453-500, fn_channel.h:201-236, fn_out_udp_device.h:25-33).
   Not modelled: Windows and macOS. *)
From Coq Require Import String ZArith List Bool.
From Verif Require Import Base ParseVal.
From Verif Require Load.
Import ListNotations.
Open Scope Z_scope.

(* an open file: its bytes, and the number of bytes behind which reading fails *)
Record stream := mkStream { f_bytes : text; f_bad : option nat }.
Definition readable (f : stream) : text := match f_bad f with None => f_bytes f | Some n => firstn n (f_bytes f) end.

(* read_content, fn_file.h:206-223: fread returns fewer bytes than asked for at the
   end of the file and when reading fails *)
Fixpoint read_loop (fuel bufsiz : nat) (rest content : text) : outcome text :=
  match fuel with
  | O => Fuel
  | S fuel' =>
      let buf := firstn bufsiz rest in
      let content := content ++ buf in
      if (length buf =? bufsiz)%nat then read_loop fuel' bufsiz (skipn bufsiz rest) content else Ret content
  end.
Definition read_content (fuel bufsiz : nat) (f : option stream) : outcome text :=
  match f with None => Ret [] | Some f => read_loop fuel bufsiz (readable f) [] end.

(* fgets with a buffer of n + 1 bytes *)
Fixpoint fgets (n : nat) (s : text) : text :=
  match n, s with
  | S n', c :: s' => if c =? 10 then [c] else c :: fgets n' s'
  | _, _ => []
  end.
(* std::string(const char* ) *)
Fixpoint c_string (s : text) : text :=
  match s with [] => [] | c :: s' => if c =? 0 then [] else c :: c_string s' end.
(* read_line, fn_file.h:197-205 *)
Definition read_line (f : stream) : text := c_string (fgets 499 (readable f)).
(* name.rfind and substr behind it *)
Fixpoint after_last (x : Z) (s : text) : text :=
  match s with
  | [] => []
  | c :: s' => if existsb (Z.eqb x) s' then after_last x s' else if c =? x then s' else s
  end.
(* process_name, fn_file.h:300-340; [cmdline] is /proc/self/cmdline if it can be
   opened *)
Definition process_name (cmdline : option stream) : text :=
  match cmdline with
  | None => s2z "process"
  | Some f => after_last 47 (read_line f)
  end.
(* fn_core.h:382-385 *)
Definition logger_name (cmdline : option stream) : text := Load.lg_name (Load.init_logger (process_name cmdline)).

(* create_dir, fn_file.h:253-282, from the position behind [pre] on; [isd] is opendir
   and [mkd] mkdir with the file system behind it.  The result and the directories
   made are returned. *)
Fixpoint create_from {F : Type} (isd : F -> text -> bool) (mkd : F -> text -> F * bool) (pre rest : text) (fs : F) : F * bool * list text :=
  match rest with
  | [] => (fs, true, [])
  | c :: rest' =>
      if c =? 47 then
        if (0 <? zlen pre) && negb (isd fs pre) then
          match mkd fs pre with
          | (fs, true) => let '(fs, r, l) := create_from isd mkd (pre ++ [c]) rest' fs in (fs, r, pre :: l)
          | (fs, false) => (fs, false, [])
          end
        else create_from isd mkd (pre ++ [c]) rest' fs
      else create_from isd mkd (pre ++ [c]) rest' fs
  end.
Definition create_dir {F : Type} (isd : F -> text -> bool) (mkd : F -> text -> F * bool) (path : text) (fs : F) : F * bool * list text :=
  create_from isd mkd [] path fs.

(* UDPHandler: open_ts_, and for an open socket the address it is bound to *)
Record udp := mkUdp { u_ts : Z; u_sock : option (option (Z * Z)) }.
Definition udp0 : udp := mkUdp 0 None.
(* open, fn_file.h:453-486: [now] is the time and [sock] whether socket() gives one.
   The second result says whether it was asked. *)
Definition udp_open (now : Z) (sock : bool) (u : udp) : udp * bool :=
  if now <=? u_ts u + 2 then (u, false)
  else (mkUdp now (if sock then Some None else None), true).
Definition is_open (u : udp) : bool := match u_sock u with Some _ => true | None => false end.

(* what a line of an output device meets, fn_out_udp_device.h:25-42: time, whether
   socket() succeeds, the result of sendto *)
Record line_io := mkLineIo { li_now : Z; li_sock : bool; li_sent : Z }.
(* one line: the handle, whether a socket was asked for, whether the line was handed
   to sendto, and how much DEVICE_LOG_TOTAL_LOSE_LINE grows *)
Definition out_line (i : line_io) (u : udp) : udp * bool * bool * Z :=
  let '(u, asked) := if is_open u then (u, false) else udp_open (li_now i) (li_sock i) u in
  if is_open u then (u, asked, true, if li_sent i <=? 0 then 1 else 0) else (u, asked, false, 1).
Fixpoint out_lines (l : list line_io) (u : udp) : list (line_io * bool * bool * Z) :=
  match l with
  | [] => []
  | i :: l => let '(u, asked, handed, lost) := out_line i u in (i, asked, handed, lost) :: out_lines l u
  end.

(* a round of an input device, fn_channel.h:201-236: time, DEVICE_CFG_ABLE, the
   configured address, whether socket() and bind() succeed *)
Record round_io := mkRoundIo { ri_now : Z; ri_able : bool; ri_addr : Z * Z; ri_sock : bool; ri_bind : bool }.
(* the handle, and whether a socket was asked for *)
Definition in_round (i : round_io) (u : udp) : udp * bool :=
  if negb (ri_able i) then (mkUdp (u_ts u) None, false)
  else if is_open u then (u, false)
  else
    let '(u, asked) := udp_open (ri_now i) (ri_sock i) u in
    if is_open u then (mkUdp (u_ts u) (if ri_bind i then Some (Some (ri_addr i)) else None), asked)
    else (u, asked).
Fixpoint in_rounds (l : list round_io) (u : udp) : list (round_io * bool * udp) :=
  match l with
  | [] => []
  | i :: l => let '(u, asked) := in_round i u in (i, asked, u) :: in_rounds l u
  end.
