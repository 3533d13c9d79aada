(** C87: loading on Windows from any directory. *)
From Verif.Model Require Import Base Str Path StdPath OsPaths BMap Error Value De Triple EasyTypes Serde Context ApplyEnv
  Process Walk Load Resolve Easy OsLoad.
From Verif.Spec Require WinAnySpec.
From Verif.Spec Require Import StrSpec ConfigSpec LoadSpec EnvSpec FinalSpec WinSpec WinLoadSpec WinPanicSpec WinAnyLoadSpec.
From Verif.Proof Require Import LoadProof FinalProof WinLoadProof WinPanicProof WinAnyLoadProof WinSpellProof.
From Verif.Proof Require WinAnyProof.
From Verif.Props Require WinAny.
From Verif.Spec Require Import WinSpec WinAnyLoadSpec.

(** From a directory in a volume, however it is written: the files that are read, and what comes
    of them.  Files that cannot be read are an error; of others, either something in them or in a
    variable has the wrong form, or a path or a target has no meaning, or every value is what and
    where it should be. *)
Theorem C87_load f p cwd o v r ws : read_as cwd (Some v, r, ws) -> sturdy v ->
  exists home ps, any_home p o (Some v, r, ws) home /\ any_visited (fs_exists f) (Some v, r, ws) home ps
    /\ ((forall l, ~ reads f ps l) -> exists e, os_easy_load windows f p cwd o = Err e)
    /\ forall env l, environment p o env -> reads f ps l ->
       ((exists ec, os_easy_load windows f p cwd o = Ok ec) <->
          same_shapes (map snd l) /\ variables_readable env l /\ ~ any_unnamed env l)
       /\ (forall x, os_easy_load windows f p cwd o = Panic x <->
          x = PUnwrapNone /\ same_shapes (map snd l) /\ variables_readable env l /\ any_unnamed env l)
       /\ (forall ec, (forall h, home = Some h -> grounded h) -> os_easy_load windows f p cwd o = Ok ec ->
             any_values (Some v, r, ws) env l ec).
Proof.
  intros H So. set (home := os_cx_cargo_home windows p (into_context p o cwd) cwd).
  assert (V := visited_any cwd v r ws H So (fs_exists f) home). set (ps := os_walk windows (fs_exists f) cwd home) in *.
  exists home, ps. split; [exact (home_any cwd v r ws H So p o)|]. split; [exact V|]. split.
  { intros N. apply (any_load_err f p cwd o ps eq_refl). intros l [R _]. exact (N l R). }
  intros env l En R. split; [exact (any_load_ok f p cwd o env l ps eq_refl En R)|].
  split; [exact (any_load_panic f p cwd o env l ps eq_refl En R)|].
  intros ec Gh. apply (any_load_values f p cwd o env l ps eq_refl En R); [exact H|exact So|].
  intros q. exact (visited_grounded _ v r ws home ps q So V Gh).
Qed.
Print Assumptions C87_load.
(** Where a text leads is determined, but for the spelling. *)
Theorem C87_located m s x y : located m s x -> located m s y -> std_eqb windows x y = true.
Proof.
  intros L L'. destruct (located_unique m s x y L L') as ([[v r] ws] & X & Y).
  apply (WinAnyProof.reads_equal x y v r ws v r ws X Y). auto.
Qed.
Print Assumptions C87_located.

(** On a file system that does not tell spellings apart, that of the current directory does not
    matter, but for the spelling of the paths that are had. *)
Theorem C87_spelling f p o env v r ws a b :
  unspelled f -> environment p o env -> sturdy v -> (forall h, any_home p o (Some v, r, ws) (Some h) -> grounded h) ->
  read_as a (Some v, r, ws) -> read_as b (Some v, r, ws) ->
  match os_easy_load windows f p a o, os_easy_load windows f p b o with
  | Ok c, Ok c' => alike_values c c'
  | Panic x, Panic y => x = y
  | Err _, Err _ => True
  | _, _ => False
  end.
Proof.
  intros U En So G A C.
  assert (O := spelled_ok f p o env v r ws U En So G). assert (P := spelled_panic f p o env v r ws U En So G).
  destruct (os_easy_load windows f p a o) as [c|e|x] eqn:Ha.
  - destruct (O a b c A C Ha) as (c' & Hb & V). now rewrite Hb.
  - destruct (os_easy_load windows f p b o) as [c'|e'|y] eqn:Hb; [|exact I|].
    + destruct (O b a c' C A Hb) as (c & Hc & _). congruence.
    + specialize (P b a y C A Hb). congruence.
  - rewrite (P a b x A C Ha). reflexivity.
Qed.
Print Assumptions C87_spelling.

(** ** Examples *)
Definition c87_near : toml :=
  TomlTab [(B "build", TomlTab [(B "rustc", TomlStr (B "bin/rc")); (B "target-dir", TomlStr (B "\out")); (B "jobs", TomlInt 4);
                                (B "target", TomlStr (B "x/my.json"))])].
Definition c87_far : toml :=
  TomlTab [(B "build", TomlTab [(B "rustdoc", TomlStr (B ".\rd")); (B "rustc", TomlStr (B "no"))]);
           (B "env", TomlTab [(B "E", TomlTab [(B "value", TomlStr (B "e")); (B "relative", TomlBool true)])])].
Definition c87_fs : fs :=
  mkFsys (fun a => existsb (std_eqb windows a) [B "C:\p\.cargo\config"; B "C:\p\a\..\h\config.toml"])
         (fun a => if std_eqb windows a (B "C:\p\.cargo\config") then ReadTree c87_near
                   else if std_eqb windows a (B "C:\p\a\..\h\config.toml") then ReadTree c87_far else ReadErr KNotFound).
Definition c87_process : process_env := mkProcess [(B "Cargo_Home", B "..\h")] (Some (B "C:\me")).
Definition c87_at : reading := (Some (WinAnySpec.AtDrive "C"), true, [B "p"; B "a"]).
Definition c87_load (cwd : str) : option (list (option str) * option (list str) * option eenv) :=
  match os_easy_load windows c87_fs c87_process cwd options_default with
  | Ok ec => Some ([easy_look BuildRustc ec; easy_look BuildTargetDir ec; easy_look BuildRustdoc ec; easy_look BuildDepInfoBasedir ec],
                   easy_words BuildTarget ec, bget (B "E") (ec_env ec))
  | _ => None
  end.
Ltac read := unfold read_as; cbn [fst snd];
  first [apply WinAnySpec.reads_root; [apply WinAnyProof.starts_iff; split; vm_compute; reflexivity|eexists _, _; split; [vm_compute; reflexivity|first [left; reflexivity|right; reflexivity]]]
        |WinAny.read].
(** The same directory, written in two ways. *)
Example C87_ex_load :
  read_as (B "C:\p\a") c87_at /\ read_as (B "c:/p//a\.") c87_at /\ sturdy (WinAnySpec.AtDrive "C")
  /\ c87_load (B "C:\p\a")
     = Some ([Some (B "C:\p\bin/rc"); Some (B "C:\out"); Some (B "C:\p\a\..\.\rd"); None], Some [B "C:\p\x/my.json"],
             Some (mkEenv (B "C:\p\a\..\e") false false))
  /\ c87_load (B "c:/p//a\.")
     = Some ([Some (B "c:/p\bin/rc"); Some (B "c:\out"); Some (B "c:/p//a\.\..\.\rd"); None], Some [B "c:/p\x/my.json"],
             Some (mkEenv (B "c:/p//a\.\..\e") false false)).
Proof.
  split; [|split].
  - change c87_at with (Some (WinAnySpec.AtDrive "C"), true, WinSpec.pieces (B "\p\a")). read.
  - change c87_at with (Some (WinAnySpec.AtDrive "C"), true, WinSpec.pieces (B "/p//a\.")). read.
  - split; [repeat split; discriminate|]. split; vm_compute; reflexivity.
Qed.
(** A file system as in the above. *)
Example C87_ex_spelling : unspelled c87_fs
  /\ (exists env, environment c87_process options_default env)
  /\ forall h, any_home c87_process options_default c87_at (Some h) -> grounded h.
Proof.
  assert (Eq : forall a b t, alike a b -> std_eqb windows a t = std_eqb windows b t).
  { intros a b t ([[v r] ws] & A & C). destruct (read_total t) as ([[v' r'] ws'] & T).
    assert (X := WinAnyProof.reads_equal a t _ _ _ _ _ _ A T). assert (Y := WinAnyProof.reads_equal b t _ _ _ _ _ _ C T).
    cbn [fst snd] in X, Y. destruct (std_eqb windows a t), (std_eqb windows b t); intuition congruence. }
  split; [|split].
  - intros a b H. cbn [c87_fs fs_exists fs_read existsb]. now rewrite !(Eq a b _ H).
  - exists (cx_env (into_context c87_process options_default (B "C:\p\a"))). apply environment_ex. discriminate.
  - intros h H. destruct (located_unique c87_at (B "..\h") h (B "C:\p\a\..\h")) as (m & M & M').
    + assert (V : variable_is (p_vars c87_process) (B "CARGO_HOME") (Some (B "..\h"))).
      { apply variable_set with (before := []) (n := B "Cargo_Home") (after := []); [reflexivity|reflexivity|constructor]. }
      assert (Vu : forall r, variable_is (p_vars c87_process) (B "CARGO_HOME") r -> r = Some (B "..\h")).
      { intros r X. apply var_spec in X, V. congruence. }
      inversion H as [|? E'|s x E' Vs Ns L|d m x var E' Vs Em D R S|]; subst.
      * discriminate E'.
      * apply Vu in Vs. injection Vs as ->. exact L.
      * apply Vu in Vs. subst var. destruct Em; discriminate.
    + apply located_below with (wq := [B ".."; B "h"]); [intros []| |].
      * change [B ".."; B "h"] with (WinAnySpec.first_dot (B "..\h") ++ WinSpec.pieces (B "..\h")). read.
      * change ([B "p"; B "a"] ++ WinAnySpec.after [B ".."; B "h"]) with (WinSpec.pieces (B "\p\a\..\h")). read.
    + assert (R : read_as (B "C:\p\a\..\h") (Some (WinAnySpec.AtDrive "C"), true, WinSpec.pieces (B "\p\a\..\h"))) by read.
      assert (E' := read_unique _ _ _ R M'). subst m. do 3 eexists. split; [exact M|]. repeat split; discriminate.
Qed.
(** In the long form. *)
Example C87_ex_long :
  read_as (B "\\?\C:\p\a") (Some (WinAnySpec.LongDrive "C"), true, [B "p"; B "a"]) /\ sturdy (WinAnySpec.LongDrive "C")
  /\ (exists ec, os_easy_load windows c87_fs (mkProcess [(B "CARGO_BUILD_TARGET_DIR", B "..\.\o"); (B "CARGO_BUILD_DEP_INFO_BASEDIR", [])] None)
                  (B "\\?\C:\p\a") options_default = Ok ec
        /\ easy_look BuildTargetDir ec = Some (B "\\?\C:\p\o") /\ easy_look BuildDepInfoBasedir ec = Some (B "\\?\C:\p\a\"))
  /\ located (Some (WinAnySpec.LongDrive "C"), true, [B "p"; B "a"]) (B "..\.\o") (B "\\?\C:\p\o").
Proof.
  split; [|split; [|split]].
  - change [B "p"; B "a"] with (WinAnySpec.long_pieces (B "p\a")). read.
  - repeat split; discriminate.
  - eexists. split; [vm_compute; reflexivity|]. split; vm_compute; reflexivity.
  - apply located_long with (rq := false) (wq := [B ".."; B "o"]) (r' := true); [exact I|discriminate| | |].
    + change [B ".."; B "o"] with (WinAnySpec.first_dot (B "..\.\o") ++ WinSpec.pieces (B "..\.\o")). read.
    + change (WinAnySpec.onto [B "p"; B "a"] [B ".."; B "o"]) with (WinAnySpec.long_pieces (B "p\o")). read.
    + split; [discriminate|]. intros [X _]. discriminate X.
Qed.
(** A home that is a volume: there is nothing above its file. *)
Example C87_ex_baseless : baseless (Some (DefPath (B "//server/share\config"))) /\ ~ baseless (Some (DefPath (B "c:.cargo/config"))).
Proof.
  split.
  - apply baseless_file with (Some (WinAnySpec.AtShare (B "server") (B "share")), true, WinSpec.pieces (B "\config")); [read|cbn; lia].
  - intros H. inversion H as [q m R L]. subst q.
    assert (R' : read_as (B "c:.cargo/config") (Some (WinAnySpec.AtDrive "C"), false, WinSpec.pieces (B ".cargo/config"))) by read.
    rewrite (read_unique _ _ _ R R') in L. vm_compute in L. lia.
Qed.
