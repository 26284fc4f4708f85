(* What InitFromYMAL prints about a rejected configuration: DebugErrno,
   fn_parse.h:39-116, and the report of fn_load.h:169-193. *)
From Coq Require Import String ZArith List Bool.
From Verif Require Import Base LoggerState FileName ParseVal Lexer ParseCfg.
Import ListNotations.
Open Scope Z_scope.

(* DebugErrno, fn_parse.h:39-116, by the numbers of the enumerations fn_data.h:488-526
   and fn_parse.h:18-36; [maxdev] is FN_LOG_MAX_DEVICE_SIZE.  There is no case for
   PEC_ILLEGAL_VAR_VALUE. *)
Definition debug_errno (maxdev code : Z) : text :=
  if code =? 0 then s2z "success"
  else if code =? 1 then s2z "logger alread in use"
  else if code =? 2 then s2z "logger not init"
  else if code =? 3 then s2z "logger not running"
  else if code =? 4 then s2z "invalid config path"
  else if code =? E_INVALID_CHANNEL_SIZE then s2z "invalid channel size"
  else if code =? 6 then s2z "invalid channel sync"
  else if code =? 7 then s2z "invalid channel state"
  else if code =? 8 then s2z "create thread faield"
  else if code =? E_CHANNEL_NOT_SEQUENCE then s2z "channel index need sequence."
  else if code =? E_OUT_OF_DEVICE_SIZE then s2z "out of device size(" ++ to_string maxdev ++ s2z ")"
  else if code =? E_DEVICE_NOT_SEQUENCE then s2z "device index need sequence."
  else if (12 <=? code) && (code <=? 16) then s2z "shm error"
  else if (17 <=? code) && (code <=? 20) then s2z "some warn"
  else if code =? 21 then s2z "syntax error"
  else if code =? PEC_NONSUPPORT_SYNTAX then s2z "unsupport syntax"
  else if code =? PEC_ILLEGAL_KEY then s2z "unknown key"
  else if code =? PEC_ILLEGAL_VAR_NAME then s2z "name or key invalid"
  else if code =? PEC_NOT_CLOSURE then s2z "not closure line "
  else if (code =? PEC_ILLEGAL_ADDR_IP) || (code =? PEC_ILLEGAL_ADDR_PORT) then s2z "udp addr error"
  else if code =? PEC_DEFINED_TARGET_TOO_LONG then s2z "var/macro name len must longger than/equal new name."
  else if (code =? PEC_UNDEFINED_DEVICE_KEY) || (code =? PEC_UNDEFINED_DEVICE_TYPE)
          || (code =? PEC_UNDEFINED_CHANNEL_KEY) || (code =? PEC_UNDEFINED_GLOBAL_KEY) then s2z "undefined type"
  else s2z "unknown error.".

(* the loop of fn_load.h:178-190: how much of the text is quoted *)
Fixpoint quote_len (fuel : nat) (b : text) (cur end_ limit : Z) : outcome Z :=
  match fuel with
  | O => Fuel
  | S fuel' =>
      if end_ <=? cur + limit then Ret limit
      else
        let! c := rd b (cur + limit) in
        if c =? 0 then Ret limit
        else if limit <? 380 then quote_len fuel' b cur end_ (limit + 1)
        else if c =? 10 then Ret limit
        else quote_len fuel' b cur end_ (limit + 1)
  end.

(* fn_load.h:173-193 with the printf; current_ is never null after ParseLogger *)
Definition report (e : penv) (code : Z) (s : lstate) : outcome text :=
  let! n := quote_len (S (length (buf s))) (buf s) (s_cur s) (s_end s) 0 in
  let! q := sub (buf s) (s_cur s) (s_cur s + n) in
  Ret (s2z "ParseLogger has error:<" ++ to_string code ++ [32] ++ debug_errno (x_maxdev e) code
       ++ s2z "> in line:[" ++ to_string (s_no s) ++ s2z "]  before:" ++ [10] ++ q ++ [10]).

(* InitFromYMAL up to line 193: the code of ParseLogger, and what is printed *)
Definition parse_report (fuel : nat) (e : penv) (shm : Z) (t : text) : outcome (Z * text) :=
  let! r := parse_logger fuel e shm t in
  let '(code, s) := r in
  if negb (code =? PEC_NONE) then let! out := report e code s in Ret (code, out)
  else Ret (code, []).
