(** Model of the reading of files in tecs/rinex/futils.py: expand_obs, expand_nav, and open() for the coordinate files, from the
    bytes on the disk and the external programs to the lines the readers get. *)
From Verif Require Import Base PyStr PyFloat PyDate PyPath PyRegex M_Common M_Header M_Rec M_Names M_Xyz M_Main.
Open Scope nat_scope.

(** What is outside the program: the bytes of the files (None: no such file, or it cannot be opened); gzip -cd FILE and
    crx2rnx - FILE, as functions from the bytes they read to the bytes they write to their standard output (None: the program is not
    installed, so that Popen raises OSError), crx2rnx reading a pipe being the same function; and the decoding open() uses, that of
    the locale (None: UnicodeDecodeError).  A program that fails writes what it writes up to that point; its message goes to
    stderr and its exit status is never asked for (futils.py:136-149, 188-222, 228-245). *)
Record tools := mkTools { t_file : str -> option str; t_gzip : option (str -> str); t_crx : option (str -> str); t_locale : str -> option str }.

(** what a program that is given the name of a file writes; nothing if there is no such file *)
Definition of_file (p : str -> str) (b : option str) : str := match b with Some x => p x | None => [] end.

(** futils.py:122-153 expand_nav: the text.  The text of a plain file is decoded when it is read; the exception is raised here as
    if that happened at once (for a file of more than 8192 bytes an exception of the reader may come first).
    UnicodeDecodeError is a ValueError. *)
Definition read_text (t : tools) (filename : str) : res str :=
  do b <- of_option OSError (t_file t filename);
  do s <- of_option ValueError (t_locale t b);
  Ok (universal s).
Definition expand_nav (t : tools) (filename : str) : res str :=
  if negb (re_test RE_Z filename) then read_text t filename
  else do gz <- of_option UncompressError (t_gzip t);
       Ok (universal (write_ascii_lines (byte_lines (of_file gz (t_file t filename))))).

(** futils.py:156-253 expand_obs: the text; the choice is [expand_plan].  expand_text says what is done with the output of the
    programs. *)
Definition expand_obs (t : tools) (filename : str) : res str :=
  do p <- expand_plan filename;
  let b := t_file t filename in
  match p with
  | Plain => do x <- of_option OSError b; Ok (expand_text [] [] [] x p)
  | Gunzip | Nothing => do gz <- of_option UncompressError (t_gzip t); Ok (expand_text (of_file gz b) [] [] [] p)
  | Crx => do crx <- of_option UncompressError (t_crx t); Ok (expand_text [] (of_file crx b) [] [] p)
  | GunzipCrx => do gz <- of_option UncompressError (t_gzip t);
                 do crx <- of_option UncompressError (t_crx t); Ok (expand_text [] [] (crx (of_file gz b)) [] p)
  end.

(** the lines the readers get: iteration and readline split after each newline *)
Definition lines_of (r : res str) : res (list str) := do s <- r; Ok (byte_lines s).
(** the world of a run with these files and programs; coordinate files are read with open() (futils.py:396) *)
Definition tools_world (t : tools) (w : world) : world :=
  mkWorld (w_libm w) (w_fuel w) (w_ls w) (fun p => lines_of (expand_obs t p)) (fun p => lines_of (expand_nav t p)) (fun p => lines_of (read_text t p))
    (w_there w) (w_strftime w) (w_now w).
