(* File name templates: PreFmtName, FmtName, MakeFileName and MakePathName,
   fn_out_file_device.h:18-188, and the std::string operations they use. *)
From Coq Require Import String ZArith List Bool.
From Verif Require Import Base.
Import ListNotations.
Open Scope Z_scope.

(* ---- std::string ---- *)
Definition teq (a b : text) : bool := if list_eq_dec Z.eq_dec a b then true else false.

(* find(ch, pos) *)
Fixpoint find (ch : Z) (s : text) : option nat :=
  match s with
  | [] => None
  | x :: r => if x =? ch then Some O else option_map S (find ch r)
  end.
Definition find_from (ch : Z) (s : text) (pos : nat) : option nat :=
  option_map (Nat.add pos) (find ch (skipn pos s)).
(* replace(pos, n, by) *)
Definition replace (s : text) (pos n : nat) (by_ : text) : text :=
  firstn pos s ++ by_ ++ skipn (pos + n) s.
(* substr(pos, n); in every call below pos is within the string *)
Definition substr (s : text) (pos n : nat) : text := firstn n (skipn pos s).

(* std::to_string of an int and snprintf "%0<w>d" *)
Fixpoint dec_digits (fuel : nat) (n : Z) (acc : text) : text :=
  match fuel with
  | O => acc
  | S fuel' =>
      let acc := 48 + n mod 10 :: acc in
      if n <? 10 then acc else dec_digits fuel' (n / 10) acc
  end.
Definition dec_abs (n : Z) : text := dec_digits (S (Z.to_nat (Z.log2 n))) n [].
Definition to_string (n : Z) : text := if n <? 0 then 45 :: dec_abs (- n) else dec_abs n.
Definition pad (w : Z) (n : Z) : text :=
  let t := dec_abs (Z.abs n) in
  let w := if n <? 0 then w - 1 else w in
  (if n <? 0 then [45] else []) ++ repeat 48 (Z.to_nat (w - zlen t)) ++ t.

(* ---- what a name is made from: struct tm, getpid() and the first argument of
   the process up to its last '/' (process_name, fn_file.h:302-344) ---- *)
Record clock := mkClock {
  k_year : Z; k_mon : Z; k_mday : Z; k_hour : Z; k_min : Z; k_sec : Z
}.
Record fenv := mkEnv { v_name : text; v_pid : Z }.

(* process_id, fn_file.h:286-299 *)
Definition process_id (e : fenv) : text := pad 6 (v_pid e).

(* PreFmtName, fn_out_file_device.h:18-59 *)
Fixpoint pre_loop (fuel : nat) (name : text) (pos : nat) : outcome text :=
  match fuel with
  | O => Fuel
  | S fuel' =>
      match find_from 37 name pos with
      | None => Ret name
      | Some pos =>
          if (length name - pos <? 2)%nat then Ret name
          else if nth (pos + 1) name 0 =? 70
               then pre_loop fuel' (replace name pos 2 (s2z "$YEAR-$MON-$DAY")) pos
               else pre_loop fuel' name (S pos)
      end
  end.

(* The switch of FmtName, 82-154: the new name, or None for has_error. *)
Definition expand (e : fenv) (t : clock) (name : text) (pos : nat) : option text :=
  let ch := nth (pos + 1) name 0 in
  if ch =? 80 then                                               (* 'P' *)
    if teq (substr name (pos + 2) 4) (s2z "NAME") then Some (replace name pos 6 (v_name e))
    else if teq (substr name (pos + 2) 2) (s2z "ID") then Some (replace name pos 4 (process_id e))
    else None
  else if ch =? 89 then                                          (* 'Y' *)
    if teq (substr name (pos + 2) 3) (s2z "EAR") then Some (replace name pos 5 (pad 4 (k_year t + 1900)))
    else None
  else if ch =? 77 then                                          (* 'M' *)
    if teq (substr name (pos + 2) 2) (s2z "ON") then Some (replace name pos 4 (pad 2 (k_mon t + 1)))
    else if teq (substr name (pos + 2) 2) (s2z "IN") then Some (replace name pos 4 (pad 2 (k_min t)))
    else None
  else if ch =? 68 then                                          (* 'D' *)
    if teq (substr name (pos + 2) 2) (s2z "AY") then Some (replace name pos 4 (pad 2 (k_mday t)))
    else None
  else if ch =? 72 then                                          (* 'H' *)
    if teq (substr name (pos + 2) 3) (s2z "OUR") then Some (replace name pos 5 (pad 2 (k_hour t)))
    else None
  else if ch =? 83 then                                          (* 'S' *)
    if teq (substr name (pos + 2) 2) (s2z "EC") then Some (replace name pos 4 (pad 2 (k_sec t)))
    else None
  else None.

(* FmtName, 61-169 *)
Fixpoint fmt_loop (fuel : nat) (e : fenv) (t : clock) (name : text) (pos : nat) : outcome text :=
  match fuel with
  | O => Fuel
  | S fuel' =>
      match find_from 36 name pos with
      | None => Ret name
      | Some pos =>
          if (length name - pos <? 2)%nat then Ret name
          else match expand e t name pos with
               | Some name' => fmt_loop fuel' e t name' pos
               | None => fmt_loop fuel' e t name (S pos)
               end
      end
  end.
Definition fmt_name (fuel : nat) (e : fenv) (t : clock) (fmt : text) : outcome text :=
  match fmt with
  | [] => Ret []
  | _ => let! name := pre_loop fuel fmt 0 in fmt_loop fuel e t name 0
  end.

(* MakeFileName, 173-184 *)
Definition make_file_name (fuel : nat) (e : fenv) (t : clock) (fmt : text) (chan dev : Z) : outcome text :=
  let name := match fmt with
              | [] => s2z "$PNAME_$YEAR$MON$DAY_$PID." ++ to_string chan ++ to_string dev
              | _ => fmt
              end in
  fmt_name fuel e t (name ++ s2z ".log").

(* MakePathName, 186-189 *)
Definition make_path_name (fuel : nat) (e : fenv) (t : clock) (fmt : text) : outcome text :=
  fmt_name fuel e t fmt.
