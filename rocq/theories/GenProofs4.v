(** * GenProofs4: the shipped table, an example and the violations *)
From Coq Require Import ZArith List Ascii String Bool Lia Sorted.
From Verif Require Import PyBase PyFacts TabModel GenModel GenSpec GenProofs GenProofs2 GenProofs3.
Import ListNotations.
Open Scope Z_scope.

Lemma shipped : codegen (c_header BASE_PROTOTYPES) = Ok (table_lines BASE_PROTOTYPES).
Proof. vm_compute. reflexivity. Qed.

(** An example: two declarations of one name, a parameter over two lines, pipe, no parameter. *)
Definition nl : text := ["010"%char].
Definition tab : text := ["009"%char].
Definition ex_read : decl :=
  {| d_name := T "read";
     d_params := [{| p_words := [T "unsigned"; T "int"]; p_stars := 0; p_name := T "fd" |};
                  {| p_words := [T "char"]; p_stars := 1; p_name := T "buf" |};
                  {| p_words := [T "size_t"]; p_stars := 0; p_name := [] |}] |}.
Definition ex_pipe : decl :=
  {| d_name := T "pipe"; d_params := [{| p_words := [T "int"]; p_stars := 1; p_name := T "fildes" |}] |}.
Definition ex_getpid : decl := {| d_name := T "getpid"; d_params := [] |}.
Definition ex_header : text :=
  T "/* sys_old(int x) */" ++ nl ++
  T "asmlinkage long sys_read(unsigned int fd, char __user *buf," ++ nl ++ tab ++ T "size_t);" ++ nl ++
  T "asmlinkage long sys_getpid(void);" ++ nl ++
  T "asmlinkage long sys32_pipe(int __user *fildes);" ++ nl.
Definition ex_lines : list text :=
  [T """getpid"": (""long"", ("; T ")),";
   T """pipe"": (""long"", ("; T "    (""int[2]"", ""fildes""),"; T ")),";
   T """read"": (""long"", ("; T "    (""unsigned int"", ""fd""),"; T "    (""char *"", ""buf""),";
   T "    (""size_t"", """"),"; T ")),"].

Ltac chars := intros c Hc; cbn in Hc; repeat (destruct Hc as [<-|Hc]; [repeat split; discriminate|]); destruct Hc.
Ltac nochars := cbn; intros Hc; repeat (destruct Hc as [Hc|Hc]; [discriminate|]); destruct Hc.
Ltac whites := repeat (apply Forall_cons || apply Forall_nil); intros c Hc; cbn in Hc; repeat (destruct Hc as [<-|Hc]; [reflexivity|]); destruct Hc.

Lemma ex_spaced_void : spaced [T "void"] (T "void").
Proof. exists [[]]. split; [reflexivity|]. split; [whites|]. split; [constructor|reflexivity]. Qed.

Lemma ex_header_ok : header ex_header [ex_read; ex_getpid; ex_pipe] /\ Forall good [ex_read; ex_getpid; ex_pipe] /\ codegen ex_header = Ok ex_lines.
Proof.
  split; [|split; [|vm_compute; reflexivity]].
  - change ex_header with (T "/* sys_old(int x) */" ++ newline ++
      T "asmlinkage long sys_read(unsigned int fd, char __user *buf," ++ nl ++ tab ++ T "size_t);" ++ nl ++
      T "asmlinkage long sys_getpid(void);" ++ nl ++ T "asmlinkage long sys32_pipe(int __user *fildes);" ++ nl).
    apply h_line; [nochars|reflexivity|reflexivity|].
    change (header ((T "asmlinkage long sys_read(unsigned int fd, char __user *buf," ++ nl ++ tab ++ T "size_t)") ++ T ";" ++ newline ++
      ((T "asmlinkage long sys_getpid(void)") ++ T ";" ++ newline ++ ((T "asmlinkage long sys32_pipe(int __user *fildes)") ++ T ";" ++ newline ++ []))) [ex_read; ex_getpid; ex_pipe]).
    apply h_decl; [|nochars|apply h_decl; [|nochars|apply h_decl; [|nochars|constructor]]].
    + exists (T "asmlinkage long sys_"), [T "unsigned int fd"; T " char __user *buf"; nl ++ tab ++ T "size_t"].
      split; [now left|]. split; [reflexivity|]. cbn [d_params ex_read]. constructor; [|constructor; [|constructor; [|constructor]]].
      * exists [T "unsigned"; T "int"; T "fd"]. split; [split; [|discriminate]|].
        -- exists [T "fd"]. split; [exact (end_alone _)|reflexivity].
        -- exists [[]; T " "; T " "]. split; [reflexivity|]. split; [whites|]. split; [repeat (constructor; try discriminate)|reflexivity].
      * exists [T "char"; T "__user"; T "*buf"]. split; [split; [|discriminate]|].
        -- exists [T "*buf"]. split; [apply (end_joined {| p_words := [T "char"]; p_stars := 1; p_name := T "buf" |}); discriminate|reflexivity].
        -- exists [T " "; T " "; T " "]. split; [reflexivity|]. split; [whites|]. split; [repeat (constructor; try discriminate)|reflexivity].
      * exists [T "size_t"]. split; [split; [|discriminate]|].
        -- exists []. split; [exact (end_alone _)|reflexivity].
        -- exists [nl ++ tab]. split; [reflexivity|]. split; [whites|]. split; [constructor|reflexivity].
    + exists (T "asmlinkage long sys_"), [T "void"]. split; [now left|]. split; [reflexivity|]. exists (T "void"). split; [reflexivity|exact ex_spaced_void].
    + exists (T "asmlinkage long sys32_"), [T "int __user *fildes"]. split; [right; now left|]. split; [reflexivity|]. cbn [d_params ex_pipe]. constructor; [|constructor].
      exists [T "int"; T "__user"; T "*fildes"]. split; [split; [|discriminate]|].
      -- exists [T "*fildes"]. split; [apply (end_joined {| p_words := [T "int"]; p_stars := 1; p_name := T "fildes" |}); discriminate|reflexivity].
      -- exists [[]; T " "; T " "]. split; [reflexivity|]. split; [whites|]. split; [repeat (constructor; try discriminate)|reflexivity].
  - assert (forall t, (t <> []) -> forallb (fun c => negb (is_space c) && negb (Ascii.eqb c ",") && negb (Ascii.eqb c "(") && negb (Ascii.eqb c ")")) t = true -> contains (T "__user") t = false -> plain_word t) as PW.
    { intros t H1 H2 H3. split; [|exact H3]. split; [exact H1|]. intros c Hc. rewrite forallb_forall in H2. specialize (H2 c Hc).
      rewrite !andb_true_iff, !negb_true_iff in H2. destruct H2 as [[[A B] C] D]. apply Ascii.eqb_neq in B, C, D. auto. }
    assert (forall w n nm, w <> [] -> Forall plain_word w -> plain_word nm -> ~ In "*"%char nm -> like_type nm = false -> good_param {| p_words := w; p_stars := n; p_name := nm |}) as GP.
    { intros w n nm H1 H2 H3 H4 H5. split; [exact H1|split; [exact H2|]]. cbn [p_name]. destruct (text_eqb nm []) eqn:E; [apply text_eqb_eq in E; subst; destruct H3 as [[H3 _] _]; congruence|]. auto. }
    assert (good_param {| p_words := [T "size_t"]; p_stars := 0; p_name := [] |}) as G3.
    { split; [discriminate|]. split; [constructor; [apply PW; [discriminate|reflexivity|reflexivity]|constructor]|]. right. reflexivity. }
    apply Forall_cons; [|apply Forall_cons; [|apply Forall_cons; [|apply Forall_nil]]].
    + split; [nochars|]. apply Forall_cons; [|apply Forall_cons; [|apply Forall_cons; [exact G3|apply Forall_nil]]].
      * apply GP; [discriminate| |apply PW; [discriminate|reflexivity|reflexivity]|nochars|reflexivity].
        apply Forall_cons; [apply PW; [discriminate|reflexivity|reflexivity]|apply Forall_cons; [apply PW; [discriminate|reflexivity|reflexivity]|apply Forall_nil]].
      * apply GP; [discriminate| |apply PW; [discriminate|reflexivity|reflexivity]|nochars|reflexivity].
        apply Forall_cons; [apply PW; [discriminate|reflexivity|reflexivity]|apply Forall_nil].
    + split; [nochars|apply Forall_nil].
    + split; [nochars|]. apply Forall_cons; [|apply Forall_nil].
      apply GP; [discriminate| |apply PW; [discriminate|reflexivity|reflexivity]|nochars|reflexivity].
      apply Forall_cons; [apply PW; [discriminate|reflexivity|reflexivity]|apply Forall_nil].
Qed.

(** A name ending like a type. *)
Lemma hint : codegen (T "asmlinkage long sys_x(const char *hint);") = Ok [T """x"": (""long"", ("; T "    (""const char *hint"", """"),"; T ")),"].
Proof. vm_compute. reflexivity. Qed.
(** A type without name that is not one of the known ones. *)
Lemma unnamed : codegen (T "asmlinkage long sys_sendto(int, unsigned);") = Ok [T """sendto"": (""long"", ("; T "    (""int"", """"),"; T "    ("""", ""unsigned""),"; T ")),"].
Proof. vm_compute. reflexivity. Qed.
(** White space before a comma. *)
Lemma before_comma : codegen (T "asmlinkage long sys_x(int a , int b);") = Err EAttributeError.
Proof. vm_compute. reflexivity. Qed.
