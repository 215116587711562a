(** Model of the logger, src/shared/shl_log.c:39-278, and of cli_printf_time_prefix,
    src/ctl/ctl-cli.c:90-122, which makes the same stamp. What is written to
    stderr is the result. The clock, localtime, the locale and what the calls of
    libc do to errno are arguments; writing succeeds. *)
From Coq Require Import String.
From Verif Require Import Base Text.
Local Open Scope list_scope.
Local Open Scope N_scope.

(** ** Time since the start *)
(** struct timeval: seconds and microseconds. *)
Definition timeval : Type := Z * Z.
(** log__have_time, src/shared/shl_log.c:42-45. *)
Definition have_time (f : timeval) : bool := negb ((fst f =? 0) && (snd f =? 0))%Z.
(** log_init_time, src/shared/shl_log.c:47-51. *)
Definition init_time (f now : timeval) : timeval := if have_time f then f else now.
(** log__time, src/shared/shl_log.c:53-71. *)
Definition log_time (f t : timeval) : Z * Z :=
  let sec := (fst t - fst f)%Z in
  let usec := (snd t - snd f)%Z in
  if (usec <? 0)%Z then
    let sec := (sec - 1)%Z in
    ((if (sec <? 0)%Z then 0 else sec)%Z, (1000000 + usec)%Z)
  else (sec, usec).
(** %.<n>lld: at least [n] digits. *)
Definition zeros (n : N) (l : list byte) : list byte := repeat 48 (N.to_nat (n - lenN l)) ++ l.
Definition prec (n : N) (z : Z) : list byte :=
  if (z <? 0)%Z then 45 :: zeros n (dec (Z.to_N (- z))) else zeros n (dec (Z.to_N z)).
(** "[%.4lld.%.6lld] ". *)
Definition elapsed (f t : timeval) : list byte :=
  let '(sec, usec) := log_time f t in [91] ++ prec 4 sec ++ [46] ++ prec 6 usec ++ [93; 32].

(** ** Date and time *)
(** localtime(): the fields that are used; [tm_x] and [tm_X] are the date and time of
    the locale. *)
Record tm := mkTm { tm_x : list byte; tm_X : list byte; tm_day : N }.
(** lrint(usec / 1000.0): the nearest integer, of two the even one. *)
Definition lrint_ms (usec : N) : N :=
  let q := usec / 1000 in let r := usec mod 1000 in
  if r <? 500 then q else if 500 <? r then q + 1 else if N.even q then q else q + 1.
(** src/shared/shl_log.c:158-171: [usec] from gettimeofday; time() and localtime()
    give [t] for the moment after. The second that is added to tv is not used.
    "%03d" is the day of the month with three digits. Of a text that does not fit
    nothing is stored, and an uninitialised array is printed. *)
Definition BUFTMP : N := 80.
Definition BUFFER : N := 120.
Definition stamp (usec : N) (t : tm) : res (list byte) :=
  let ms := lrint_ms usec in
  let ms := if 1000 <=? ms then ms - 1000 else ms in
  let tmp := tm_x t ++ text " - " ++ tm_X t ++ [46] ++ zeros 3 (dec (tm_day t)) in
  if lenN tmp <? BUFTMP then
    let b := tmp ++ [46] ++ zeros 3 (dec ms) in
    if lenN b <? BUFFER then Ok b else UB
  else UB.

(** ** Messages *)
(** log__sev2str, src/shared/shl_log.c:113-123. *)
Definition SEV_NUM : N := 9.
Definition sev_names : list string := ["FATAL"; "ALERT"; "CRITICAL"; "ERROR"; "WARNING"; "NOTICE"; "INFO"; "DEBUG"; "TRACE"]%string.
Definition sev_name (sev : N) : option (list byte) := option_map text (nth_error sev_names (N.to_nat sev)).
(** The settings: log_max_sev, log_date_time, log__ftime. *)
Record logger := mkLogger { g_max : N; g_date : bool; g_start : timeval }.
(** The world at a call: gettimeofday (twice), localtime, errno after any call. *)
Record world := mkWorld { w_now : timeval; w_usec : N; w_tm : tm; w_errno : Z }.
(** Where a message comes from: file, line, function. *)
Record place := mkPlace { p_file : option (list byte); p_line : Z; p_func : option (list byte) }.
Definition opt_colon (o : option (list byte)) : list byte := match o with Some l => l ++ text ": " | None => [] end.
Definition or_unknown (o : option (list byte)) : list byte := match o with Some l => l | None => text "<unknown>" end.
Definition dec_z (z : Z) : list byte := dec (Z.to_N z).
(** log__submit, src/shared/shl_log.c:125-225. [fmt]: the text vfprintf makes, which
    may depend on errno (%m). What is written and errno at the end. *)
Definition log__submit (g : logger) (w : world) (errno : Z) (p : place) (subs : option (list byte)) (sev : N) (fmt : Z -> list byte) : res (list byte * Z) :=
  if (sev <? SEV_NUM) && (g_max g <? sev) then Ok ([], errno)
  else
    do s <- (if g_date g then stamp (w_usec w) (w_tm w) else Ok []);
    let name := if sev <? SEV_NUM then sev_name sev else None in
    let head := if g_date g then [91] ++ s ++ [93; 32]
                else if have_time (g_start g) then elapsed (g_start g) (w_now w) else [] in
    let body := fmt errno in
    let tail := if (sev =? 7) || (sev <=? 4)
                then text " (" ++ or_unknown (p_func p) ++ text "() in " ++ or_unknown (p_file p) ++ text ":"
                     ++ dec_z (if (p_line p <? 0)%Z then 0%Z else p_line p) ++ text ")" ++ [10]
                else [10] in
    Ok (head ++ opt_colon name ++ opt_colon subs ++ body ++ tail, w_errno w).
(** log_format and log_submit, src/shared/shl_log.c:227-266. *)
Definition log_format (g : logger) (w : world) (errno : Z) (p : place) (subs : option (list byte)) (sev : N) (fmt : Z -> list byte) : res (list byte * Z) :=
  do r <- log__submit g w errno p subs sev fmt; Ok (fst r, errno).
(** cli_printf_time_prefix, src/ctl/ctl-cli.c:90-122. *)
Definition cli_prefix (g : logger) (w : world) : res (list byte) :=
  if g_date g then do s <- stamp (w_usec w) (w_tm w); Ok ([91] ++ s ++ [93; 32])
  else Ok (if have_time (g_start g) then elapsed (g_start g) (w_now w) else []).
