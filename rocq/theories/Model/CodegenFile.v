(** How the code generator writes files: tools/codegen/src/file.rs:32-149 and 153-189, and the choice of
    the files it reads, tools/codegen/src/main.rs:298-327.  [prettyplease] is not modelled: what it
    wrote is given.  The warning about .gitattributes (file.rs:128-142) is left out. *)
From Verif.Model Require Import Base Str Path.

(** ** Formatting macro calls *)

(** [&bytes[i..]] *)
Definition bytes_from {E} (bytes : str) (i : nat) : res E str :=
  if Nat.leb i (length bytes) then Ok (skipn i bytes) else Panic PSlice.

(** tools/codegen/src/file.rs:82-94 *)
Definition replace {E} (bytes : str) (i : nat) (needle new : str) : res E (str * nat) :=
  r <- bytes_from bytes i ;;
  if starts_with needle r
  then Ok (firstn i bytes ++ new ++ skipn (i + length needle) bytes, i + length new - 1)
  else Ok (bytes, i).

(** The count of open parentheses is an [i32]. *)
Definition i32_top : Z := 2147483647%Z.
Definition count_up {E} (pr : profile) (c : Z) : res E Z :=
  if Z.eqb c i32_top then (if overflow_checks pr then Panic POverflow else Ok (- i32_top - 1)%Z)
  else Ok (c + 1)%Z.
Definition count_down {E} (pr : profile) (c : Z) : res E Z :=
  if Z.eqb c (- i32_top - 1) then (if overflow_checks pr then Panic POverflow else Ok i32_top)
  else Ok (c - 1)%Z.

(** tools/codegen/src/file.rs:73-101.  [fuel] bounds the number of rounds. *)
Fixpoint in_macro {E} (pr : profile) (fuel : nat) (bytes : str) (i : nat) (count : Z) : res E (str * nat) :=
  match fuel with
  | 0 => Panic PFuel
  | S fuel =>
      match nth_error bytes i with
      | None => Ok (bytes, i)
      | Some b =>
          if Ascii.eqb b "(" then
            c <- count_up pr count ;; in_macro pr fuel bytes (i + 1) c
          else if Ascii.eqb b ")" then
            if Z.eqb count 0 then Ok (bytes, i)
            else c <- count_down pr count ;; in_macro pr fuel bytes (i + 1) c
          else
            r <- replace bytes i (B "crate ::") (B "crate::") ;; let '(bytes, i) := r in
            r <- replace bytes i (B " < ") (B "<") ;; let '(bytes, i) := r in
            r <- replace bytes i (B " >") (B ">") ;; let '(bytes, i) := r in
            in_macro pr fuel bytes (i + 1) count
      end
  end.
(** tools/codegen/src/file.rs:67-107 [format_macros] *)
Fixpoint format_from {E} (pr : profile) (fuel : nat) (bytes : str) (i : nat) : res E str :=
  match fuel with
  | 0 => Panic PFuel
  | S fuel =>
      if Nat.ltb i (length bytes) then
        r <- bytes_from bytes i ;;
        if starts_with (B "!(") r then
          r <- in_macro pr fuel bytes (i + 2) 0 ;; let '(bytes, i) := r in
          format_from pr fuel bytes i
        else format_from pr fuel bytes (i + 1)
      else Ok bytes
  end.
Definition format_macros {E} (pr : profile) (bytes : str) : res E str :=
  format_from pr (S (length bytes)) bytes 0.

(** ** Writing a file *)

(** tools/codegen/src/file.rs:34-51 [header]; [CARGO_BIN_NAME] and the file of the caller are those of
    this generator. *)
Definition header (function : str) : str :=
  B "// SPDX-License-Identifier: Apache-2.0 OR MIT
// This file is @generated by cargo-config2-internal-codegen
// (" ++ function ++ B " function at tools/codegen/src/main.rs).
// It is not intended for manual editing.

#![cfg_attr(rustfmt, rustfmt::skip)]
".
(** The files of the workspace, by their path in it; reading and writing may fail. *)
Record disk := mkDisk {
  dk_content : str -> option str;
  dk_readable : str -> bool;
  dk_writable : str -> bool
}.
Inductive io_failure := CannotRead | CannotWrite.
Definition put (p : str) (s : str) (d : disk) : disk :=
  mkDisk (fun q => if str_eqb q p then Some s else dk_content d q) (dk_readable d) (dk_writable d).
(** tools/codegen/src/file.rs:123-149 [write_raw]; the last result tells whether it has been written. *)
Definition write_raw (d : disk) (function p contents : str) : res io_failure (disk * bool) :=
  let out := header function ++ contents in
  let write := if dk_writable d p then Ok (put p out d, true) else Err CannotWrite in
  match dk_content d p with
  | Some old =>
      if dk_readable d p then (if str_eqb old out then Ok (d, false) else write) else Err CannotRead
  | None => write
  end.

(** ** The files that are read *)

(** tools/codegen/src/file.rs:173-188 [git_ls_files]: what git wrote, and the files that exist. *)
Definition listed (exists_ : str -> bool) (stdout : str) : list str :=
  filter (fun f => (negb (is_empty f) && exists_ f)%bool) (map trim (lines stdout)).
(** tools/codegen/src/main.rs:302-306 *)
Definition for_assertions (l : list str) : list str :=
  filter (fun f => negb (str_eqb f (B "main.rs") || starts_with (B "bin/") f)) l.
(** tools/codegen/src/main.rs:46-51, 222-227, 315-320; a name without a stem does not occur. *)
Definition module_of (f : str) : list str :=
  if ends_with (B "lib.rs") f then []
  else match file_stem f with Some s => [s] | None => [] end.
