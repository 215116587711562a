(** Model of the decoding of received options, src/dhcp/client.c:1783-1879 and 2190-2227, with
    the option table of src/dhcp/common.c:42-72. [d] is the data of an option, as found by
    dhcp_get_option; its length is the option's length byte. Allocation succeeds. *)
From Verif Require Import Base Text.

Inductive otype := UNKNOWN | IP | STRING | U8 | U16 | U32.
(** client_options, src/dhcp/common.c:42-59: type and OPTION_LIST. *)
Definition code_type (code : N) : otype * bool :=
  match code with
  | 0x01 => (IP, false) | 0x03 => (IP, true) | 0x06 => (IP, true) | 0x0c => (STRING, false) | 0x0f => (STRING, false)
  | 0x2a => (IP, true) | 0x33 => (U32, false) | 0x32 => (IP, false) | 0x35 => (U8, false) | 0x36 => (U32, false)
  | 0x39 => (U16, false) | 0x3c => (STRING, false) | 0x3d => (STRING, false) | 0xfc => (STRING, false)
  | _ => (UNKNOWN, false)
  end.
(** dhcp_option_lengths, src/dhcp/common.h:165-171, and len_of_option_as_string,
    src/dhcp/client.c:1792-1799. *)
Definition olen (t : otype) : N := match t with UNKNOWN => 0 | IP => 4 | STRING => 1 | U8 => 1 | U16 => 2 | U32 => 4 end.
Definition slen (t : otype) : N := match t with UNKNOWN => 0 | IP => 17 | STRING => 1 | U8 => 5 | U16 => 7 | U32 => 12 end.

(** sprintf to [dest]: the text and a terminator; the new [dest]. *)
Definition print (buf : list cell) (dest : N) (s : list byte) : res (list cell * N) :=
  do b <- mem_write buf dest (map Some (s ++ [0])); Ok (b, dest + lenN s).
Definition at_ (d : list byte) (i : N) : res N := match nthN d i with Some b => Ok b | None => UB end.

(** The loop of lines 1823-1852 on the rest [d] of the option. [Ok None]: out of fuel. *)
Fixpoint vloop (fuel : nat) (t : otype) (d : list byte) (buf : list cell) (dest : N) : res (option (list cell)) :=
  match fuel with
  | O => Ok None
  | S fuel =>
      if lenN d <? olen t then Ok (Some buf)
      else
        let next bd :=
          let '(buf, dest) := bd in
          let d := dropN (olen t) d in
          if lenN d =? 0 then Ok (Some buf)
          else do buf <- mem_write buf dest [Some 32; Some 0]; vloop fuel t d buf (dest + 1) in
        match t with
        | IP =>
            do a <- at_ d 0; do b <- at_ d 1; do c <- at_ d 2; do e <- at_ d 3;
            do r <- print buf dest (dec a ++ [46] ++ dec b ++ [46] ++ dec c ++ [46] ++ dec e); next r
        | U16 => do a <- at_ d 0; do b <- at_ d 1; do r <- print buf dest (dec (256 * a + b)); next r
        | U32 =>
            do a <- at_ d 0; do b <- at_ d 1; do c <- at_ d 2; do e <- at_ d 3;
            do r <- print buf dest (dec (2 ^ 24 * a + 2 ^ 16 * b + 2 ^ 8 * c + e)); next r
        | STRING => do b <- mem_write buf dest (map Some (d ++ [0])); Ok (Some b)
        | _ => next (buf, dest)
        end
  end.
(** malloc_option_value_string, lines 1807-1855; [Some None]: NULL. *)
Definition value_string (t : otype) (d : list byte) : res (option (option (list cell))) :=
  if olen t =? 0 then Ok (Some None)
  else
    do r <- vloop (S (length d)) t d (fresh (slen t * (lenN d / olen t) + 1)) 0;
    Ok (option_map Some r).

(** The C string in a buffer: reading past its end or an uninitialised byte is undefined. *)
Fixpoint c_string (b : list cell) : res (list byte) :=
  match b with
  | Some c :: b => if c =? 0 then Ok [] else do s <- c_string b; Ok (c :: s)
  | _ => UB
  end.
(** The loop of lines 1868-1876. *)
Fixpoint split_spaces (s : list byte) : list (list byte) :=
  match s with
  | [] => [[]]
  | c :: s => if c =? 32 then [] :: split_spaces s
              else match split_spaces s with v :: vs => (c :: v) :: vs | [] => [[c]] end
  end.
(** get_option_value_list, lines 1857-1879; a list is compared with OPTION_STRING
    together with its flag. *)
Definition value_list (t : otype) (s : option (list cell)) : res (list (list byte)) :=
  match s with
  | None => Ok []
  | Some b => do s <- c_string b; Ok (match t with STRING => [s] | _ => split_spaces s end)
  end.
(** The body of get_request, lines 2203-2225, for a requested option with data [d]: the values
    stored for it. *)
Definition values (code : N) (d : list byte) : res (option (list (list byte))) :=
  do s <- value_string (fst (code_type code)) d;
  match s with
  | None => Ok None
  | Some s => do v <- value_list (fst (code_type code)) s; Ok (Some v)
  end.
