(** C72: the library on Windows, as far as paths are concerned. *)
From Verif.Model Require Import Base Str Path StdPath OsPaths Error Value Triple.
From Verif.Spec Require Import StrSpec WinSpec.
From Verif.Proof Require Import StrFacts StdPathProof StdUnixProof StdParentProof WinPrefixProof WinDirProof WinUseProof.

Lemma plain_short v : plain_volume v -> px_verbatim (vprefix v) = false.
Proof. now destruct v. Qed.

(** ** Which files are read *)

(** Going up: one name less at a time, up to the root of the volume. *)
Theorem C72_above v names : volume_ok v -> Forall win_name names ->
  std_ancestors windows (dir v names) = map (dir v) (above names).
Proof. exact (dir_ancestors v names). Qed.
Print Assumptions C72_above.
(** For any text: the parent is a beginning of it and lacks the last part, and only paths that
    end in a root or a volume (or are empty) have none. *)
Theorem C72_parent p :
  match std_parent windows p with
  | Some q => (exists rest, rest <> [] /\ p = q ++ rest)
              /\ exists x, movable x /\ map bare (parts windows p) = map bare (parts windows q) ++ [x]
  | None => forall l x, map bare (parts windows p) = l ++ [x] -> ~ movable x
  end.
Proof. exact (parent_parts windows windows_steady p). Qed.
Print Assumptions C72_parent.
(** The search ends: no more directories than the path has bytes, and one. *)
Theorem C72_ends p : length (std_ancestors windows p) <= S (length p).
Proof. exact (ancestors_length windows p). Qed.
Print Assumptions C72_ends.
(** The files reported without CARGO_HOME, in order. *)
Theorem C72_walk ex v names : volume_ok v -> Forall win_name names ->
  os_walk windows ex (dir v names) None = flat_map (fun k => found ex v (k ++ [B ".cargo"])) (above names).
Proof. exact (win_walk_none ex v names). Qed.
Print Assumptions C72_walk.
(** CARGO_HOME adds nothing if it is the [.cargo] of a directory above, however it is spelled. *)
Theorem C72_home_seen ex c names h k : is_letter c -> Forall win_name names -> In k (above names) ->
  on_drive h (capital c) true (k ++ [B ".cargo"]) ->
  os_walk windows ex (dir (Drive c) names) (Some h) = os_walk windows ex (dir (Drive c) names) None.
Proof. exact (home_seen ex c names h k). Qed.
Print Assumptions C72_home_seen.
(** Otherwise its file comes last. *)
Theorem C72_home_last ex v names w home : volume_ok v -> volume_ok w -> Forall win_name names -> Forall win_name home ->
  ~ (same_volume w v /\ exists k, In k (above names) /\ home = k ++ [B ".cargo"]) ->
  os_walk windows ex (dir v names) (Some (dir w home)) = os_walk windows ex (dir v names) None ++ found ex w home.
Proof. exact (home_last ex v names w home). Qed.
Print Assumptions C72_home_last.
(** Paths on drives are equal if the drive is the same in either case, both or none start at the
    root, and the pieces between separators of either kind are the same. *)
Theorem C72_spellings p q d d' r r' l l' : on_drive p d r l -> on_drive q d' r' l' ->
  (std_eqb windows p q = true <-> d = d' /\ r = r' /\ l = l').
Proof. exact (drive_same p q d d' r r' l l'). Qed.
Print Assumptions C72_spellings.
(** Where CARGO_HOME is. *)
Theorem C72_cargo_home v names : volume_ok v -> Forall win_name names -> plain_volume v ->
  (forall w l' d, volume_ok w -> os_cargo_home windows (Some (dir w l')) d (dir v names) = Some (dir w l'))
  /\ (forall h d, relative h ->
        os_cargo_home windows (Some h) d (dir v names) = Some (dir v names ++ (match names with [] => [] | _ => [back] end) ++ h))
  /\ (forall h d, rooted h -> os_cargo_home windows (Some h) d (dir v names) = Some (volume_text v ++ h))
  /\ (forall c h d, is_letter c -> os_cargo_home windows (Some (c :: ":"%char :: h)) d (dir v names) = Some (c :: ":"%char :: h)).
Proof. exact (fun V N P => cargo_home_cases v names V N (plain_short v P)). Qed.
Print Assumptions C72_cargo_home.
Theorem C72_cargo_home_default v names var d cwd : volume_ok v -> Forall win_name names -> (var = None \/ var = Some []) ->
  d = Some (dir v names) -> os_cargo_home windows var d cwd = Some (dir v (names ++ [B ".cargo"])).
Proof. exact (home_default v names var d cwd). Qed.
Print Assumptions C72_cargo_home_default.

(** ** What paths in files are relative to *)
Theorem C72_root (E : Type) v names f cwd : volume_ok v -> Forall win_name names -> win_name f ->
  @os_root windows E (DefPath (dir v (names ++ [B ".cargo"; f]))) cwd = Ok (dir v names).
Proof. exact (file_root v names f cwd). Qed.
Print Assumptions C72_root.
(** Programs.  A name without separators stays, to be looked for in PATH; *)
Theorem C72_program_name (E : Type) v names f cwd s : volume_ok v -> Forall win_name names -> win_name f -> ~ has_separator s ->
  @os_program_path windows E (mkValue s (Some (DefPath (dir v (names ++ [B ".cargo"; f]))))) cwd = Ok s.
Proof. exact (fun V N F => proj1 (@program_cases E v names f cwd s V N F)). Qed.
Print Assumptions C72_program_name.
(** so does a path on a volume, or one relative to the current directory of a drive; *)
Theorem C72_program_volume (E : Type) v names f cwd w s : volume_ok v -> Forall win_name names -> win_name f -> volume_ok w ->
  @os_program_path windows E (mkValue (volume_text w ++ back :: s) (Some (DefPath (dir v (names ++ [B ".cargo"; f]))))) cwd
  = Ok (volume_text w ++ back :: s).
Proof.
  exact (fun V N F W => proj1 (proj2 (@program_cases E v names f cwd (volume_text w ++ back :: s) V N F))
    (eq_ind_r (fun x => x <> None) (fun e => eq_ind (Some (vprefix w)) (fun o => match o with Some _ => True | None => False end) I None e) (under_prefix w W s))).
Qed.
Print Assumptions C72_program_volume.
Theorem C72_program_drive (E : Type) v names f cwd c s : volume_ok v -> Forall win_name names -> win_name f -> is_letter c ->
  @os_program_path windows E (mkValue (c :: ":"%char :: s) (Some (DefPath (dir v (names ++ [B ".cargo"; f]))))) cwd
  = Ok (c :: ":"%char :: s).
Proof.
  exact (fun V N F L => proj1 (proj2 (@program_cases E v names f cwd (c :: ":"%char :: s) V N F))
    (eq_ind_r (fun x => x <> None) (fun e => eq_ind (Some (PDisk (upper_byte c))) (fun o => match o with Some _ => True | None => False end) I None e) (drive_prefix c s L))).
Qed.
Print Assumptions C72_program_drive.
(** a relative path with a separator of either kind is put behind the directory; *)
Theorem C72_program_relative (E : Type) v names f cwd s : volume_ok v -> Forall win_name names -> win_name f ->
  plain_volume v -> has_separator s -> relative s ->
  @os_program_path windows E (mkValue s (Some (DefPath (dir v (names ++ [B ".cargo"; f]))))) cwd
  = Ok (dir v names ++ (match names with [] => [] | _ => [back] end) ++ s).
Proof.
  exact (fun V N F Vb H R => eq_trans (proj2 (proj2 (@program_cases E v names f cwd s V N F)) H (proj2 (relative_root s R)))
           (f_equal Ok (join_dir v names s V N (plain_short v Vb) R))).
Qed.
Print Assumptions C72_program_relative.
(** in a directory in the long form it is rewritten with backslashes; *)
Theorem C72_program_long (E : Type) c names f cwd s ns : is_letter c -> Forall win_name names -> win_name f ->
  has_separator s -> names_text s ns ->
  @os_program_path windows E (mkValue s (Some (DefPath (dir (Long c) (names ++ [B ".cargo"; f]))))) cwd = Ok (dir (Long c) (names ++ ns)).
Proof.
  exact (fun L N F H T => eq_trans (proj2 (proj2 (@program_cases E (Long c) names f cwd s L N F)) H
             (proj2 (relative_root s (of_names_relative s ns (text_of_names s ns T)))))
           (f_equal Ok (join_long c names s ns L N (text_of_names s ns T)))).
Qed.
Print Assumptions C72_program_long.
(** and one starting with a separator keeps only the volume of the directory. *)
Theorem C72_program_rooted (E : Type) v names f cwd s : volume_ok v -> Forall win_name names -> win_name f ->
  plain_volume v -> has_separator s -> rooted s ->
  @os_program_path windows E (mkValue s (Some (DefPath (dir v (names ++ [B ".cargo"; f]))))) cwd = Ok (volume_text v ++ s).
Proof.
  exact (fun V N F Vb H R => eq_trans (proj2 (proj2 (@program_cases E v names f cwd s V N F)) H (proj1 (rooted_facts s R)))
           (f_equal Ok (join_rooted v names s V (plain_short v Vb) R))).
Qed.
Print Assumptions C72_program_rooted.

(** ** Targets and the compiler *)
Theorem C72_spec (E : Type) v names f s ns stem t cwd : volume_ok v -> Forall win_name names -> win_name f -> plain_volume v ->
  stem <> [] -> names_text s (ns ++ [stem ++ B ".json"]) -> to_str stem = Some t ->
  @os_triple windows E s (Some (DefPath (dir v (names ++ [B ".cargo"; f])))) (Some cwd)
  = Ok (mkTriple t (Some (dir v names ++ (match names with [] => [] | _ => [back] end) ++ s))).
Proof. exact (fun V N F P => spec_relative v names f s ns stem t cwd V N F (plain_short v P)). Qed.
Print Assumptions C72_spec.
Theorem C72_rustc v names cargo ex : volume_ok v -> Forall win_name (names ++ [cargo]) ->
  os_rustc_path windows (B ".exe") (dir v (names ++ [cargo])) ex
  = (if ex (dir v (names ++ [B "rustc.exe"])) then dir v (names ++ [B "rustc.exe"]) else B "rustc").
Proof. exact (rustc_beside v names cargo ex). Qed.
Print Assumptions C72_rustc.

(** ** What one might expect and is not so *)
Definition among (l : list str) (p : str) : bool := existsb (str_eqb p) l.
(** CARGO_HOME written in another case, which is the same directory for the system, is read again; *)
Theorem C72_case_refuted : exists cwd h f f',
  os_walk windows (fun p => among [f; f'] p) cwd (Some h) = [f; f'] /\ ascii_uppercase f = ascii_uppercase f' /\ ascii_uppercase h = ascii_uppercase (cargo_in windows cwd).
Proof.
  exists (B "C:\u"), (B "C:\U\.cargo"), (B "C:\u\.cargo\config"), (B "C:\U\.cargo\config"). vm_compute. auto.
Qed.
Print Assumptions C72_case_refuted.
(** so is one in the long form. *)
Theorem C72_long_refuted : exists c names,
  is_letter c /\ Forall win_name names
  /\ os_walk windows (fun p => true) (dir (Drive c) names) (Some (dir (Long c) (names ++ [B ".cargo"])))
     = [dir (Drive c) (names ++ [B ".cargo"; B "config"]); dir (Drive c) [B ".cargo"; B "config"]; dir (Long c) (names ++ [B ".cargo"; B "config"])].
Proof.
  exists "C"%char, [B "u"]. split; [vm_compute; auto 50|]. split; [|vm_compute; reflexivity].
  constructor; [|constructor]. apply nm; try discriminate; [repeat eexists|reflexivity].
Qed.
Print Assumptions C72_long_refuted.
(** A file that is found may have no directory that its paths are relative to: if CARGO_HOME is
    the root of a volume, or [C:], or if one searches from the name of a server. *)
Theorem C72_root_refuted : forall h, In h [B "C:\"; B "C:"; B "\\server\share"; B "\\?\C:\"] ->
  exists f, os_walk windows (among [f]) (B "D:\p") (Some h) = [f] /\ @os_root windows error (DefPath f) (B "D:\p") = Panic PUnwrapNone.
Proof.
  intros h H. cbn [In] in H. destruct H as [<-|[<-|[<-|[<-|[]]]]].
  - exists (B "C:\config.toml"). vm_compute. auto.
  - exists (B "C:config.toml"). vm_compute. auto.
  - exists (B "\\server\share\config.toml"). vm_compute. auto.
  - exists (B "\\?\C:\config.toml"). vm_compute. auto.
Qed.
Print Assumptions C72_root_refuted.
Theorem C72_server_refuted : exists cwd f,
  os_walk windows (among [f]) cwd None = [f] /\ @os_root windows error (DefPath f) cwd = Panic PUnwrapNone.
Proof. exists (B "\\server"), (B "\\server\.cargo\config.toml"). vm_compute. auto. Qed.
Print Assumptions C72_server_refuted.
(** A target specification directly on a server cannot be used. *)
Theorem C72_spec_refuted : exists s, os_is_spec_path windows s = true
  /\ forall d cwd, @os_triple windows error s d cwd = Panic PUnwrapNone.
Proof. exists (B "\\server\t.json"). split; [reflexivity|]. intros d cwd. reflexivity. Qed.
Print Assumptions C72_spec_refuted.

(** ** Concrete cases *)
Lemma c72_names : Forall win_name [B "Users"; B "me"; B "my project"].
Proof. repeat (constructor; [apply nm; try discriminate; [repeat eexists|reflexivity]|]). constructor. Qed.
Lemma c72_volumes : volume_ok (Drive "c") /\ volume_ok (Share (B "srv") (B "data")) /\ volume_ok (Long "C").
Proof. repeat split; try (vm_compute; auto 60; fail); try discriminate; intros H; vm_compute in H; intuition discriminate. Qed.
Example C72_ex_above :
  std_ancestors windows (B "C:\Users\me/src\.\") = [B "C:\Users\me/src\.\"; B "C:\Users\me"; B "C:\Users"; B "C:\"]
  /\ std_ancestors windows (B "\\srv\data\x") = [B "\\srv\data\x"; B "\\srv\data\"]
  /\ std_ancestors windows (B "\\?\C:\a\b") = [B "\\?\C:\a\b"; B "\\?\C:\a"; B "\\?\C:\"]
  /\ dir (Share (B "srv") (B "data")) [B "x"; B "y"] = B "\\srv\data\x\y".
Proof. vm_compute. auto. Qed.
Example C72_ex_walk :
  os_walk windows (among [B "c:\p\.cargo\config"; B "c:\p\.cargo\config.toml"; B "c:\.cargo\config.toml"; B "d:\h\config.toml"]) (B "c:\p\q") (Some (B "d:\h"))
  = [B "c:\p\.cargo\config"; B "c:\.cargo\config.toml"; B "d:\h\config.toml"].
Proof. vm_compute. reflexivity. Qed.
(** A spelling as in [C72_home_seen]: other case of the drive, both separators, dots. *)
Example C72_ex_home : on_drive (B "C:/p//.\.cargo/") (capital "c") true ([B "p"] ++ [B ".cargo"]) /\ In [B "p"] (above [B "p"; B "q"])
  /\ os_walk windows (fun _ => true) (B "c:\p\q") (Some (B "C:/p//.\.cargo/"))
     = [B "c:\p\q\.cargo\config"; B "c:\p\.cargo\config"; B "c:\.cargo\config"].
Proof.
  split; [|split; [right; left; reflexivity|vm_compute; reflexivity]].
  change (capital "c") with (capital "C"). apply (from_root "C" "/" (B "p//.\.cargo/")); [vm_compute; auto 60|right; reflexivity].
Qed.
Example C72_ex_program :
  (forall s r, In (s, r) [(B "tool", B "tool"); (B "bin/tool", B "C:\p\bin/tool"); (B "bin\tool", B "C:\p\bin\tool"); (B "\tool", B "C:\tool");
                          (B "D:tool\x", B "D:tool\x"); (B "D:\tool", B "D:\tool"); (B "\\s\d\tool", B "\\s\d\tool"); (B "../tool", B "C:\p\../tool")] ->
     @os_program_path windows error (mkValue s (Some (DefPath (B "C:\p\.cargo\config.toml")))) (B "E:\") = Ok r)
  /\ @os_program_path windows error (mkValue (B "bin/tool") (Some (DefPath (B "\\?\C:\p\.cargo\config.toml")))) (B "E:\") = Ok (B "\\?\C:\p\bin\tool").
Proof.
  split; [|vm_compute; reflexivity]. intros s r H. cbn [In] in H.
  repeat (destruct H as [H|H]; [injection H as <- <-; vm_compute; reflexivity|]). contradiction.
Qed.
Example C72_ex_relative : relative (B "bin/tool") /\ has_separator (B "bin/tool") /\ rooted (B "\tool") /\ names_text (B "bin/tool") [B "bin"; B "tool"].
Proof.
  split; [|split; [|split]].
  - split; [discriminate|]. split; [intros k t [= <- _] [H|H]; discriminate H|intros c t H; discriminate H].
  - exists "/"%char. split; [vm_compute; auto|right; reflexivity].
  - exists "\"%char, (B "tool"). split; [reflexivity|]. split; [left; reflexivity|]. intros k t [= <- _] [H|H]; discriminate H.
  - apply (more_names_text (B "bin") "/" (B "tool") [B "tool"]); [|right; reflexivity|constructor]; apply nm; try discriminate; try (repeat eexists; fail); reflexivity.
Qed.
(** The last name is the triple, on Windows also after backslashes. *)
Example C72_ex_spec :
  @os_triple windows error (B "specs\my.json") (Some (DefPath (B "C:\p\.cargo\config"))) (Some (B "E:\"))
  = Ok (mkTriple (B "my") (Some (B "C:\p\specs\my.json")))
  /\ @os_triple unix error (B "specs\my.json") (Some (DefPath (B "/p/.cargo/config"))) (Some (B "/"))
  = Ok (mkTriple (B "specs\my") (Some (B "/p/specs\my.json"))).
Proof. vm_compute. auto. Qed.
Example C72_ex_rustc :
  os_rustc_path windows (B ".exe") (B "C:\t\bin\cargo.exe") (fun _ => true) = B "C:\t\bin\rustc.exe"
  /\ os_rustc_path windows (B ".exe") (B "cargo") (fun _ => true) = B "rustc.exe".
Proof. vm_compute. auto. Qed.
