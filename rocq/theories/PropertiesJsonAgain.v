(** C212: loading any JSON file and saving it settles at the first save. *)
From Coq Require Import Ascii String ZArith List Bool Lia.
From Verif Require Import PyBase EmbConst ThreadModel TextModel NameModel CsvModel CsvAgainModel JsonModel JsonTextModel JsonTextSpec JsonTextProofs JsonFileProofs JsonAgainModel JsonAgainProofs PropertiesJsonText.
Import ListNotations.
Open Scope Z_scope.

Section again.
Context {F : Type}.
Variables (show : F -> text) (read : text -> F) (other : text -> Z).
Hypothesis floats : forall f, decimal_text (show f) /\ read (show f) = f.

(** Whatever its blanks, escapes, repeated keys and order of members: what was saved from a loaded file is loaded again with the same
    coordinates, the commands cut to 32 bits and the metadata that can be saved, and saved as the same text. *)
Theorem C212_json_settles : forall file file' stitches loaded extras, Forall valid_char file ->
  json_open read other file = Ok (stitches, loaded, extras) -> Forall (fun s => scmd s mod 256 <> NO_COMMAND mod 256) stitches ->
  json_again show read other file = Ok file' ->
  json_again show read other file' = Ok file' /\
  exists loaded', json_open read other file' =
    Ok (map (fun s => mkS (sx s) (sy s) (scmd s mod 2 ^ 32)) stitches, loaded', filter (fun e => match snd e with VOther => false | _ => true end) extras).
Proof. exact (again_settles show read other floats). Qed.
(** It can be saved exactly if every thread has a colour. *)
Theorem C212_json_saved : forall file stitches loaded extras, json_open read other file = Ok (stitches, loaded, extras) ->
  ((exists file', json_again show read other file = Ok file') <-> Forall (fun l => l_color l <> None) loaded).
Proof.
  intros file st ls ex E. unfold json_again. rewrite E. cbn [bindr].
  assert (W : (exists ths, writable_threads ls = Ok ths) <-> Forall (fun l => l_color l <> None) ls).
  { clear E. induction ls as [|l ls IH]; cbn [writable_threads]; [split; [constructor|eauto]|]. rewrite Forall_cons_iff, <- IH. unfold writable_thread. destruct (l_color l); cbn [bindr].
    - destruct (writable_threads ls) as [ths|e]; cbn [bindr]; [split; intros _; [split; [discriminate|]|]; eauto|]. split; [intros [x X]; discriminate X|intros [_ [x X]]; discriminate X].
    - split; [intros [x X]; discriminate X|intros [X _]; congruence]. }
  rewrite <- W. destruct (writable_threads ls) as [ths|e]; cbn [bindr]; split; intros [x X]; eauto; discriminate X.
Qed.
End again.

Definition by_hand : text := text_of (" { ""extras"":{""name"":""a\u00e9\uD83D\ude00\/"",""name"" : ""b"",""n"":[1,{}],""k"":-12}, ""stitches"":[[1,0.5,""STITCH t300""]," ++
  "[-0 , 2,""COLOR_CHANGE n3 o1"",7]],""threadlist"":[{""weight"":null,""chart"":null,""brand"":"""",""details"":null,""catalog_number"":null,""description"":null,""color"":""#abcdef"",""more"":true}]}")%string.
(** The name of NO_COMMAND can be read, but is not written. *)
Definition with_no_command : text := text_of "{""extras"":{},""stitches"":[[0,0,""NO_COMMAND""]],""threadlist"":[]}".
Theorem C212_no_command_refuted : exists file file' stitches, json_open two_read (fun _ => 0) file = Ok (stitches, [], []) /\ map scmd stitches = [NO_COMMAND] /\
  json_again two_show two_read (fun _ => 0) file = Ok file' /\ json_again two_show two_read (fun _ => 0) file' = Err KeyError.
Proof. exists with_no_command. eexists _, _. split; [vm_compute; reflexivity|]. split; [reflexivity|]. split; [vm_compute; reflexivity|]. vm_compute. reflexivity. Qed.

Example C212_case : Forall valid_char by_hand /\ exists loaded file',
  json_open two_read (fun _ => 0) by_hand = Ok ([mkS (CInt 1) (CFloat true) (301 * 256); mkS (CInt 0) (CInt 2) (COLOR_CHANGE + 4 * 2 ^ 16 + 2 * 2 ^ 24)], loaded,
    [(text_of "name", VStr (text_of "b")); (text_of "n", VOther); (text_of "k", VInt (-12))]) /\
  map l_color loaded = [Some 0xabcdef] /\
  json_again two_show two_read (fun _ => 0) by_hand = Ok file' /\ file' <> by_hand /\ json_again two_show two_read (fun _ => 0) file' = Ok file'.
Proof.
  split.
  - assert (G : forallb printableb by_hand = true) by (vm_compute; reflexivity). apply printable_const in G. eapply Forall_impl; [|exact G]. unfold printable, valid_char. intros c Hc. lia.
  - eexists _, _. split; [vm_compute; reflexivity|]. split; [reflexivity|]. split; [vm_compute; reflexivity|]. split; [vm_compute; discriminate|]. vm_compute. reflexivity.
Qed.

Print Assumptions C212_json_settles.
Print Assumptions C212_json_saved.
Print Assumptions C212_no_command_refuted.
