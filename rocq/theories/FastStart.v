(* Starting the default logger without a configuration file: FastStartDefaultLogger
   and FastStartDebugLogger, fn_macro.h:39-116. *)
From Coq Require Import String ZArith List Bool.
From Verif Require Import Base LoggerState ParseVal Lexer ParseCfg Load ConfigApi.
Import ListNotations.
Open Scope Z_scope.

(* default_config_text, fn_macro.h:54-102, byte by byte *)
Definition default_text : text := [
   10; 32; 35; 32; 100; 101; 102; 97; 117; 108; 116; 32; 99; 104; 97; 110; 110; 101; 108; 32; 48; 10; 32; 32; 32; 35;
   32; 119; 114; 105; 116; 101; 32; 102; 117; 108; 108; 32; 108; 111; 103; 32; 116; 111; 32; 112; 110; 97; 109; 101;
   46; 108; 111; 103; 32; 10; 32; 32; 32; 35; 32; 119; 114; 105; 116; 101; 32; 101; 114; 114; 111; 114; 32; 108; 111;
   103; 32; 116; 111; 32; 112; 110; 97; 109; 101; 95; 101; 114; 114; 111; 114; 46; 108; 111; 103; 32; 10; 32; 32; 32;
   35; 32; 118; 105; 101; 119; 32; 32; 105; 110; 102; 111; 32; 108; 111; 103; 32; 116; 111; 32; 115; 99; 114; 101;
   101; 110; 32; 10; 32; 35; 32; 115; 121; 110; 99; 32; 99; 104; 97; 110; 110; 101; 108; 32; 49; 32; 10; 32; 32; 32;
   35; 32; 119; 114; 105; 116; 101; 32; 102; 117; 108; 108; 32; 108; 111; 103; 32; 116; 111; 32; 112; 110; 97; 109;
   101; 46; 108; 111; 103; 10; 32; 32; 32; 35; 32; 119; 114; 105; 116; 101; 32; 105; 110; 102; 111; 32; 108; 111; 103;
   32; 116; 111; 32; 112; 110; 97; 109; 101; 95; 105; 110; 102; 111; 46; 108; 111; 103; 10; 32; 32; 32; 35; 32; 118;
   105; 101; 119; 32; 32; 105; 110; 102; 111; 32; 108; 111; 103; 32; 116; 111; 32; 115; 99; 114; 101; 101; 110; 32;
   10; 10; 32; 45; 32; 99; 104; 97; 110; 110; 101; 108; 58; 32; 48; 10; 32; 32; 32; 32; 115; 121; 110; 99; 58; 32; 97;
   115; 121; 110; 99; 10; 32; 32; 32; 32; 45; 100; 101; 118; 105; 99; 101; 58; 32; 48; 10; 32; 32; 32; 32; 32; 32; 32;
   32; 100; 105; 115; 97; 98; 108; 101; 58; 32; 102; 97; 108; 115; 101; 10; 32; 32; 32; 32; 32; 32; 32; 32; 111; 117;
   116; 95; 116; 121; 112; 101; 58; 32; 102; 105; 108; 101; 10; 32; 32; 32; 32; 32; 32; 32; 32; 102; 105; 108; 101;
   58; 32; 34; 36; 80; 78; 65; 77; 69; 34; 10; 32; 32; 32; 32; 32; 32; 32; 32; 114; 111; 108; 108; 98; 97; 99; 107;
   58; 32; 52; 10; 32; 32; 32; 32; 32; 32; 32; 32; 108; 105; 109; 105; 116; 95; 115; 105; 122; 101; 58; 32; 49; 48;
   48; 32; 109; 32; 35; 111; 110; 108; 121; 32; 115; 117; 112; 112; 111; 114; 116; 32; 77; 32; 98; 121; 116; 101; 10;
   32; 32; 32; 32; 45; 100; 101; 118; 105; 99; 101; 58; 32; 49; 10; 32; 32; 32; 32; 32; 32; 32; 32; 100; 105; 115; 97;
   98; 108; 101; 58; 32; 102; 97; 108; 115; 101; 10; 32; 32; 32; 32; 32; 32; 32; 32; 111; 117; 116; 95; 116; 121; 112;
   101; 58; 32; 102; 105; 108; 101; 10; 32; 32; 32; 32; 32; 32; 32; 32; 112; 114; 105; 111; 114; 105; 116; 121; 58;
   32; 101; 114; 114; 111; 114; 10; 32; 32; 32; 32; 32; 32; 32; 32; 102; 105; 108; 101; 58; 32; 34; 36; 80; 78; 65;
   77; 69; 95; 101; 114; 114; 111; 114; 34; 10; 32; 32; 32; 32; 32; 32; 32; 32; 114; 111; 108; 108; 98; 97; 99; 107;
   58; 32; 52; 10; 32; 32; 32; 32; 32; 32; 32; 32; 108; 105; 109; 105; 116; 95; 115; 105; 122; 101; 58; 32; 49; 48;
   48; 32; 109; 32; 35; 111; 110; 108; 121; 32; 115; 117; 112; 112; 111; 114; 116; 32; 77; 32; 98; 121; 116; 101; 10;
   32; 32; 32; 32; 45; 100; 101; 118; 105; 99; 101; 58; 50; 10; 32; 32; 32; 32; 32; 32; 32; 32; 100; 105; 115; 97; 98;
   108; 101; 58; 32; 102; 97; 108; 115; 101; 10; 32; 32; 32; 32; 32; 32; 32; 32; 111; 117; 116; 95; 116; 121; 112;
   101; 58; 32; 115; 99; 114; 101; 101; 110; 10; 32; 32; 32; 32; 32; 32; 32; 32; 112; 114; 105; 111; 114; 105; 116;
   121; 58; 32; 105; 110; 102; 111; 10; 32; 45; 32; 99; 104; 97; 110; 110; 101; 108; 58; 32; 49; 10; 32; 32; 32; 32;
   115; 121; 110; 99; 58; 32; 115; 121; 110; 99; 10; 32; 32; 32; 32; 45; 100; 101; 118; 105; 99; 101; 58; 32; 48; 10;
   32; 32; 32; 32; 32; 32; 32; 32; 100; 105; 115; 97; 98; 108; 101; 58; 32; 102; 97; 108; 115; 101; 10; 32; 32; 32;
   32; 32; 32; 32; 32; 111; 117; 116; 95; 116; 121; 112; 101; 58; 32; 102; 105; 108; 101; 10; 32; 32; 32; 32; 32; 32;
   32; 32; 102; 105; 108; 101; 58; 32; 34; 36; 80; 78; 65; 77; 69; 95; 115; 121; 110; 99; 34; 10; 32; 32; 32; 32; 32;
   32; 32; 32; 114; 111; 108; 108; 98; 97; 99; 107; 58; 32; 52; 10; 32; 32; 32; 32; 32; 32; 32; 32; 108; 105; 109;
   105; 116; 95; 115; 105; 122; 101; 58; 32; 49; 48; 48; 32; 109; 32; 35; 111; 110; 108; 121; 32; 115; 117; 112; 112;
   111; 114; 116; 32; 77; 32; 98; 121; 116; 101; 10; 32; 32; 32; 32; 45; 100; 101; 118; 105; 99; 101; 58; 32; 49; 10;
   32; 32; 32; 32; 32; 32; 32; 32; 100; 105; 115; 97; 98; 108; 101; 58; 32; 102; 97; 108; 115; 101; 10; 32; 32; 32;
   32; 32; 32; 32; 32; 111; 117; 116; 95; 116; 121; 112; 101; 58; 32; 102; 105; 108; 101; 10; 32; 32; 32; 32; 32; 32;
   32; 32; 112; 114; 105; 111; 114; 105; 116; 121; 58; 32; 105; 110; 102; 111; 10; 32; 32; 32; 32; 32; 32; 32; 32;
   102; 105; 108; 101; 58; 32; 34; 36; 80; 78; 65; 77; 69; 95; 115; 121; 110; 99; 95; 105; 110; 102; 111; 34; 10; 32;
   32; 32; 32; 32; 32; 32; 32; 114; 111; 108; 108; 98; 97; 99; 107; 58; 32; 52; 10; 32; 32; 32; 32; 32; 32; 32; 32;
   108; 105; 109; 105; 116; 95; 115; 105; 122; 101; 58; 32; 49; 48; 48; 32; 109; 32; 35; 111; 110; 108; 121; 32; 115;
   117; 112; 112; 111; 114; 116; 32; 77; 32; 98; 121; 116; 101; 10; 32; 32; 32; 32; 45; 100; 101; 118; 105; 99; 101;
   58; 50; 10; 32; 32; 32; 32; 32; 32; 32; 32; 100; 105; 115; 97; 98; 108; 101; 58; 32; 102; 97; 108; 115; 101; 10;
   32; 32; 32; 32; 32; 32; 32; 32; 111; 117; 116; 95; 116; 121; 112; 101; 58; 32; 115; 99; 114; 101; 101; 110; 10; 32;
   32; 32; 32; 32; 32; 32; 32; 112; 114; 105; 111; 114; 105; 116; 121; 58; 32; 105; 110; 102; 111; 32; 10
].

(* the memory of a loaded logger as the filters and the configuration calls see it:
   devices_ has MAX_DEVICE_SIZE entries, cleared behind device_size_ *)
Definition as_dev (d : pdev) : device := mkDevice (pd_in d) (pd_out d) (pd_cfg d).
Definition as_chan (maxdev : Z) (c : lchan) : channel :=
  mkChannel (pc_type (lc_p c)) (pc_virtual (lc_p c)) (zlen (pc_devs (lc_p c))) (lc_state c) (pc_cfg (lc_p c))
    (map as_dev (pc_devs (lc_p c)) ++ repeat (mkDevice 0 0 (repeat 0 15)) (Z.to_nat maxdev - length (pc_devs (lc_p c))))
    (lc_log c) (lc_dlog c).
Definition as_logger (e : lenv) (g : lg) : logger :=
  match lg_shm g with
  | None => mkLogger false (lg_state g) 0 []
  | Some m => mkLogger true (lg_state g) (sm_size m) (map (as_chan (x_maxdev (y_pe e))) (sm_chans m))
  end.

(* FastStartDefaultLogger(), fn_macro.h:39-104 *)
Definition fast_start_default (e : lenv) (th : Z -> tstart) (g : lg) : outcome (res * lg) :=
  parse_and_start e th g default_text.

(* FastStartDebugLogger(), fn_macro.h:106-116; the settings afterwards *)
Definition debug_calls : list cfg_op :=
  [BatchDevice DEVICE_OUT_FILE DEVICE_CFG_PRIORITY PRIORITY_TRACE;
   SetDevice 0 1 DEVICE_CFG_PRIORITY PRIORITY_ERROR;
   BatchDevice DEVICE_OUT_SCREEN DEVICE_CFG_PRIORITY PRIORITY_DEBUG].
Definition fast_start_debug (e : lenv) (th : Z -> tstart) (g : lg) : outcome (res * logger) :=
  let! (r, g) := fast_start_default e th g in
  match r with
  | Code 0 => let! l := cfg_run (as_logger e g) debug_calls in Ret (r, l)
  | _ => Ret (r, as_logger e g)
  end.
