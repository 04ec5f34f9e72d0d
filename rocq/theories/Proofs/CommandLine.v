(* The command line, the files and main (C66, C67). *)
From Verif Require Import GoBase.
From Verif.Spec Require Import Text Command CommandLine.
From Verif.Model Require Import Cmd Main.
From Verif.Proofs Require Import Command.
From Verif.Gen Require adsb.
Require Import String Ascii List Lia.
Local Open Scope Z_scope.

(* ---- lines of a file ---- *)

Lemma one_line_app : forall l r, one_line l -> rawLines (l ++ String newline r) = l :: rawLines r.
Proof.
  induction l as [|c l IH]; intros r H; [reflexivity|].
  destruct H as [Hc Hl]. cbn [append rawLines].
  destruct (Ascii.eqb_spec c (ascii_of_nat 10)) as [E|_]; [contradiction|]. rewrite (IH r Hl). reflexivity.
Qed.

Lemma one_line_last : forall l, one_line l -> l <> EmptyString -> rawLines l = [l].
Proof.
  induction l as [|c l IH]; intros H N; [contradiction|].
  destruct H as [Hc Hl]. cbn [rawLines].
  destruct (Ascii.eqb_spec c (ascii_of_nat 10)) as [E|_]; [contradiction|].
  destruct l as [|d l']; [reflexivity|]. rewrite IH; [reflexivity|assumption|discriminate].
Qed.

Lemma rawLines_complete : forall s ls, raw_lines s ls -> rawLines s = ls.
Proof.
  intros s ls H. induction H as [|l H N|l rest ls H _ IH]; [reflexivity| |].
  - apply one_line_last; assumption.
  - cbn [append]. rewrite (one_line_app l rest H), IH. reflexivity.
Qed.

Lemma rawLines_sound : forall s, raw_lines s (rawLines s).
Proof.
  induction s as [|c s IH]; [constructor|]. cbn [rawLines].
  destruct (Ascii.eqb_spec c (ascii_of_nat 10)) as [E|E].
  - subst. exact (raw_line EmptyString s (rawLines s) I IH).
  - remember (rawLines s) as ls. destruct IH as [|l H N|l rest ls H R].
    + apply raw_last; [split; [exact E|exact I]|discriminate].
    + apply raw_last; [split; assumption|discriminate].
    + exact (raw_line (String c l) rest ls (conj E H) R).
Qed.

Lemma dropCR_app : forall l, dropCR (l ++ String carriage_return EmptyString) = l.
Proof.
  induction l as [|c l IH]; [reflexivity|]. cbn [append dropCR].
  destruct l as [|d l']; [reflexivity|]. cbn [append] in *. rewrite IH. reflexivity.
Qed.

Lemma dropCR_same : forall l, (forall k, l <> (k ++ String carriage_return EmptyString)%string) -> dropCR l = l.
Proof.
  induction l as [|c l IH]; intro H; [reflexivity|]. cbn [dropCR].
  destruct l as [|d l'].
  - destruct (Ascii.eqb_spec c (ascii_of_nat 13)) as [E|E]; [|reflexivity].
    exfalso. apply (H EmptyString). subst. reflexivity.
  - rewrite IH; [reflexivity|]. intros k E. apply (H (String c k)). rewrite E. reflexivity.
Qed.

Lemma dropCR_chomped : forall l, chomped l (dropCR l).
Proof.
  assert (D : forall l, (exists k, l = (k ++ String carriage_return EmptyString)%string) \/
                        (forall k, l <> (k ++ String carriage_return EmptyString)%string)).
  { induction l as [|c l [[k IH]|IH]].
    - right. intros [|x k]; discriminate.
    - left. exists (String c k). rewrite IH. reflexivity.
    - destruct l as [|d l'].
      + destruct (Ascii.eqb_spec c (ascii_of_nat 13)) as [E|E].
        * left. exists EmptyString. subst. reflexivity.
        * right. intros [|x [|y k]] X; cbn in X; try discriminate. injection X as ->. apply E. reflexivity.
      + right. intros [|x k] X; cbn in X; [discriminate|]. injection X as -> X. exact (IH k X). }
  intro l. destruct (D l) as [[k ->]|N].
  - rewrite dropCR_app. constructor.
  - rewrite (dropCR_same l N). constructor. exact N.
Qed.

Lemma chomped_dropCR : forall l l', chomped l l' -> dropCR l = l'.
Proof. intros l l' [k|k H]; [apply dropCR_app|apply dropCR_same; assumption]. Qed.

(* the lines read are the lines of the file, in order *)
Theorem read_lines : forall content ls,
  readFile (File content false) = Some ls <-> lines_of content ls /\ short_lines content.
Proof.
  intros content ls. cbn [readFile].
  assert (S : short_lines content <-> existsb tooLong (rawLines content) = false).
  { split.
    - intros (raw & R & F). rewrite (rawLines_complete _ _ R). clear R. induction F as [|l raw Hl _ IH]; [reflexivity|].
      cbn [existsb]. rewrite IH. unfold tooLong, maxScanTokenSize. destruct (Z.leb_spec 65536 (Z.of_nat (String.length l))); [lia|reflexivity].
    - intro E. exists (rawLines content). split; [apply rawLines_sound|]. revert E.
      induction (rawLines content) as [|l raw IH]; intro E; [constructor|]. cbn [existsb] in E.
      destruct (tooLong l) eqn:T; [discriminate|]. constructor; [|apply IH; exact E].
      unfold tooLong, maxScanTokenSize in T. apply Z.leb_gt in T. exact T. }
  rewrite S. destruct (existsb tooLong (rawLines content)).
  { split; [discriminate|intros [_ X]; discriminate]. }
  assert (L : forall ls', lines_of content ls' <-> map dropCR (rawLines content) = ls').
  { intro ls'. split.
    - intros (raw & R & F). rewrite (rawLines_complete _ _ R). clear R. induction F as [|a b l l' H _ IH]; [reflexivity|].
      cbn [map]. rewrite IH, (chomped_dropCR _ _ H). reflexivity.
    - intros <-. exists (rawLines content). split; [apply rawLines_sound|].
      induction (rawLines content) as [|l raw IH]; constructor; [apply dropCR_chomped|exact IH]. }
  rewrite L. split; [intro E; injection E as <-; split; reflexivity|intros [<- _]; reflexivity].
Qed.

(* every file has lines, and only one list of them *)
Theorem lines_unique : forall content, exists ls, lines_of content ls /\ forall ls', lines_of content ls' -> ls' = ls.
Proof.
  intro content. exists (map dropCR (rawLines content)). split.
  - exists (rawLines content). split; [apply rawLines_sound|].
    induction (rawLines content); constructor; [apply dropCR_chomped|assumption].
  - intros ls' (raw & R & F). rewrite (rawLines_complete _ _ R). clear R. induction F as [|a b l l' H _ IH]; [reflexivity|].
    cbn [map]. rewrite IH, (chomped_dropCR _ _ H). reflexivity.
Qed.

(* ---- the command line ---- *)

Lemma cutEqual_join : forall a v, (forall x y, a <> (x ++ "=" ++ y)%string) -> cutEqual (a ++ "=" ++ v) = (a, Some v).
Proof.
  induction a as [|c a IH]; intros v H; [reflexivity|]. cbn [append cutEqual].
  destruct (Ascii.eqb_spec c "="%char) as [E|E].
  - exfalso. apply (H EmptyString a). subst. reflexivity.
  - cbn [append] in IH. rewrite IH; [reflexivity|]. intros x y X. apply (H (String c x) y). rewrite X. reflexivity.
Qed.

Lemma cutEqual_inv : forall s a v, cutEqual s = (a, v) ->
  match v with Some x => s = (a ++ "=" ++ x)%string | None => s = a end.
Proof.
  induction s as [|c s IH]; intros a v H; cbn [cutEqual] in H.
  - injection H as <- <-. reflexivity.
  - destruct (Ascii.eqb_spec c "="%char) as [E|E].
    + injection H as <- <-. subst. reflexivity.
    + destruct (cutEqual s) as [a' v'] eqn:C. injection H as <- <-. specialize (IH _ _ eq_refl).
      destruct v'; subst; reflexivity.
Qed.

Theorem parse_complete : forall number words f l f' l' rest, command_line number words f l f' l' rest ->
  parseFlags number words f l = ParseDone f' l' rest.
Proof.
  intros number words f l f' l' rest H.
  induction H as [f l|w rest f l P|rest f l|v ws words f l f' l' rest O _ IH|v z ws words f l f' l' rest O N _ IH].
  - reflexivity.
  - cbn [parseFlags]. destruct w as [|d [|c t]]; try reflexivity.
    destruct (Ascii.eqb_spec d "-"%char) as [E|E]; [|reflexivity].
    exfalso. subst. apply (P (String c t)); [discriminate|reflexivity].
  - reflexivity.
  - destruct O; cbn [app append parseFlags]; cbn; exact IH.
  - destruct O; cbn [app append parseFlags]; cbn; rewrite N; exact IH.
Qed.

Theorem parse_sound : forall number words f l f' l' rest,
  parseFlags number words f l = ParseDone f' l' rest -> command_line number words f l f' l' rest.
Proof.
  intros number.
  assert (G : forall n words, (List.length words <= n)%nat -> forall f l f' l' rest,
    parseFlags number words f l = ParseDone f' l' rest -> command_line number words f l f' l' rest).
  2:{ intros words. exact (G _ words (le_n _)). }
  induction n as [|n IH]; intros words Hn f l f' l' rest H.
  { destruct words; [|cbn in Hn; lia]. cbn in H. injection H as <- <- <-. constructor. }
  destruct words as [|s words]; [cbn in H; injection H as <- <- <-; constructor|]. cbn [List.length] in Hn.
  cbn [parseFlags] in H.
  destruct s as [|d [|c t]].
  { injection H as <- <- <-. apply words_plain. intros t N; discriminate. }
  { injection H as <- <- <-. apply words_plain. intros t N X. injection X as _ X. symmetry in X. contradiction. }
  destruct (Ascii.eqb_spec d "-"%char) as [D|D]; cbn [negb] in H.
  2:{ injection H as <- <- <-. apply words_plain. intros t' N X. injection X as X _. contradiction. }
  subst d.
  destruct (Ascii.eqb_spec c "-"%char) as [C|C]; cbn [andb] in H.
  - subst c. destruct (String.eqb_spec t EmptyString) as [T|T].
    { subst. injection H as <- <- <-. apply words_end. }
    destruct t as [|n0 n1]; [discriminate|].
    destruct (Ascii.eqb n0 "-" || Ascii.eqb n0 "=")%char; [discriminate|].
    destruct (cutEqual n1) as [a v] eqn:CE. pose proof (cutEqual_inv _ _ _ CE) as CI. clear CE.
    destruct (String.eqb_spec (String n0 a) "file") as [F|F].
    { injection F as -> ->. destruct v as [x|].
      - subst n1. refine (words_file number x [_] words f l f' l' rest (option_joined2 _ _) _). apply IH; [lia|exact H].
      - subst n1. destruct words as [|x words]; [discriminate|]. cbn [List.length] in Hn.
        refine (words_file number x [_; _] words f l f' l' rest (option_apart2 _ _) _). apply IH; [lia|exact H]. }
    destruct (String.eqb_spec (String n0 a) "adsb_reader_level") as [L|L].
    { injection L as -> ->. destruct v as [x|].
      - destruct (number x) as [z|] eqn:N; [|discriminate].
        subst n1. refine (words_level number x z [_] words f l f' l' rest (option_joined2 _ _) N _). apply IH; [lia|exact H].
      - subst n1. destruct words as [|x words]; [discriminate|]. cbn [List.length] in Hn.
        destruct (number x) as [z|] eqn:N; [|discriminate].
        refine (words_level number x z [_; _] words f l f' l' rest (option_apart2 _ _) N _). apply IH; [lia|exact H]. }
    destruct (_ || _)%bool in H; discriminate.
  - destruct (Ascii.eqb c "-" || Ascii.eqb c "=")%char; [discriminate|].
    destruct (cutEqual t) as [a v] eqn:CE. pose proof (cutEqual_inv _ _ _ CE) as CI. clear CE.
    destruct (String.eqb_spec (String c a) "file") as [F|F].
    { injection F as -> ->. destruct v as [x|].
      - subst t. refine (words_file number x [_] words f l f' l' rest (option_joined _ _) _). apply IH; [lia|exact H].
      - subst t. destruct words as [|x words]; [discriminate|]. cbn [List.length] in Hn.
        refine (words_file number x [_; _] words f l f' l' rest (option_apart _ _) _). apply IH; [lia|exact H]. }
    destruct (String.eqb_spec (String c a) "adsb_reader_level") as [L|L].
    { injection L as -> ->. destruct v as [x|].
      - destruct (number x) as [z|] eqn:N; [|discriminate].
        subst t. refine (words_level number x z [_] words f l f' l' rest (option_joined _ _) N _). apply IH; [lia|exact H].
      - subst t. destruct words as [|x words]; [discriminate|]. cbn [List.length] in Hn.
        destruct (number x) as [z|] eqn:N; [|discriminate].
        refine (words_level number x z [_; _] words f l f' l' rest (option_apart _ _) N _). apply IH; [lia|exact H]. }
    destruct (_ || _)%bool in H; discriminate.
Qed.

Lemma parse_exit_code : forall number words f l code, parseFlags number words f l = ParseExit code -> code = 0 \/ code = 2.
Proof.
  intros number.
  assert (G : forall n words, (List.length words <= n)%nat -> forall f l code,
    parseFlags number words f l = ParseExit code -> code = 0 \/ code = 2).
  2:{ intros words. exact (G _ words (le_n _)). }
  induction n as [|n IH]; intros words Hn f l code H.
  { destruct words; [discriminate|cbn in Hn; lia]. }
  destruct words as [|s words]; [discriminate|]. cbn [List.length] in Hn. cbn [parseFlags] in H.
  repeat match type of H with
  | context [match ?x with _ => _ end] => destruct x eqn:?; try discriminate; cbn [List.length] in *
  | ParseExit _ = ParseExit _ => injection H as <-; lia
  | parseFlags _ ?w _ _ = _ => apply IH in H; [exact H|lia]
  end.
Qed.

(* ---- main ---- *)

Lemma app_assoc_s : forall a b c : string, ((a ++ b) ++ c = a ++ (b ++ c))%string.
Proof. induction a; intros; cbn; [reflexivity|]. rewrite IHa. reflexivity. Qed.

Lemma app_nil_s : forall a : string, (a ++ "" = a)%string.
Proof. induction a; cbn; [reflexivity|]. rewrite IHa. reflexivity. Qed.

Lemma process_lines : forall ffmt matan2 level ls out0, exists outs,
  processLines (fun l => processSingleLine ffmt matan2 l level) ls out0 = Exit 0 (out0 ++ String.concat EmptyString outs) /\
  Forall2 (report ffmt matan2 level) ls outs.
Proof.
  intros ffmt matan2 level. induction ls as [|l ls IH]; intro out0.
  - exists []. split; [|constructor]. cbn. rewrite app_nil_s. reflexivity.
  - cbn [processLines]. destruct (command_report ffmt matan2 l level) as (o & E & R). rewrite E.
    destruct (IH (out0 ++ o)%string) as (outs & X & F). exists (o :: outs). split; [|constructor; assumption].
    rewrite X. f_equal. rewrite app_assoc_s. f_equal.
    destruct outs; cbn [String.concat]; [apply app_nil_s|reflexivity].
Qed.

(* the options are read, with a level the program supports: the file is read
   line by line, and each line reported *)
Theorem main_file : forall ffmt matan2 number open words f level rest content ls,
  command_line number words EmptyString 0 f level rest -> 0 <= level <= 2 -> f <> EmptyString ->
  open f = File content false -> lines_of content ls -> short_lines content ->
  exists outs, main ffmt matan2 number open words = Exit 0 (String.concat EmptyString outs) /\
               Forall2 (report ffmt matan2 level) ls outs.
Proof.
  intros ffmt matan2 number open words f level rest content ls H L F O HL HS.
  unfold main. rewrite (parse_complete _ _ _ _ _ _ _ H).
  assert (E : (0 <? Z.of_nat (String.length f)) = true) by (destruct f; [contradiction|reflexivity]).
  rewrite E, O. rewrite (proj2 (read_lines content ls) (conj HL HS)).
  destruct (process_lines ffmt matan2 level ls EmptyString) as (outs & P & R). exists outs. split; [|exact R].
  assert (C : level = 0 \/ level = 1 \/ level = 2) by lia.
  destruct C as [->|[->| ->]]; exact P.
Qed.

(* a file that cannot be opened, or read to its end, or that has a line of
   64 KiB or more: the program ends with status 1 and reports nothing, not even
   the lines before *)
Theorem main_bad_file : forall ffmt matan2 number open words f level rest,
  command_line number words EmptyString 0 f level rest -> 0 <= level <= 2 -> f <> EmptyString ->
  (open f = NoFile \/ (exists content, open f = File content true) \/
   exists content, open f = File content false /\ ~ short_lines content) ->
  main ffmt matan2 number open words = Exit 1 EmptyString.
Proof.
  intros ffmt matan2 number open words f level rest H L F B.
  assert (R : readFile (open f) = None).
  { destruct B as [-> | [[c ->]|[c [-> N]]]]; [reflexivity| |].
    - cbn. destruct (existsb _ _); reflexivity.
    - destruct (readFile (File c false)) as [ls|] eqn:E; [|reflexivity].
      apply read_lines in E. exfalso. apply N, E. }
  unfold main. rewrite (parse_complete _ _ _ _ _ _ _ H).
  assert (E : (0 <? Z.of_nat (String.length f)) = true) by (destruct f; [contradiction|reflexivity]).
  rewrite E, R. assert (C : level = 0 \/ level = 1 \/ level = 2) by lia.
  destruct C as [->|[->| ->]]; reflexivity.
Qed.

(* no file: what is processed is the first word, whatever it is *)
Theorem main_first_word : forall ffmt matan2 number open w words level rest,
  command_line number (w :: words) EmptyString 0 EmptyString level rest -> 0 <= level <= 2 ->
  exists out, main ffmt matan2 number open (w :: words) = Exit 0 out /\ report ffmt matan2 level w out.
Proof.
  intros ffmt matan2 number open w words level rest H L.
  unfold main. rewrite (parse_complete _ _ _ _ _ _ _ H).
  change (0 <? Z.of_nat (String.length EmptyString)) with false. cbv iota.
  destruct (process_lines ffmt matan2 level [w] EmptyString) as (outs & P & R).
  inversion R as [|? o ? ? Ro Rn]; subst. inversion Rn; subst. exists o. split; [|exact Ro].
  assert (C : level = 0 \/ level = 1 \/ level = 2) by lia.
  destruct C as [->|[->| ->]]; exact P.
Qed.

(* hence the first data word is processed when no option comes before it *)
Theorem main_data_partial : forall ffmt matan2 number open data words, plain data ->
  exists out, main ffmt matan2 number open (data :: words) = Exit 0 out /\ report ffmt matan2 0 data out.
Proof.
  intros. apply main_first_word with (rest := data :: words); [|lia]. apply words_plain. assumption.
Qed.

(* but not after an option: the data are not even looked at *)
Theorem main_data_refuted : forall ffmt matan2 number open, number "1"%string = Some 1 ->
  exists out, forall data, plain data ->
    command_line number ["-adsb_reader_level=1"%string; data] EmptyString 0 EmptyString 1 [data] /\
    main ffmt matan2 number open ["-adsb_reader_level=1"%string; data] = Exit 0 out /\
    (forall frame, hex_text data frame -> ~ report ffmt matan2 1 data out).
Proof.
  intros ffmt matan2 number open N.
  assert (CL : forall data, plain data ->
    command_line number ["-adsb_reader_level=1"%string; data] EmptyString 0 EmptyString 1 [data]).
  { intros data P. refine (words_level number "1" 1 ["-adsb_reader_level=1"%string] [data] _ _ _ _ _ (option_joined _ _) N _).
    apply words_plain. exact P. }
  eexists. intros data P. split; [apply CL; exact P|]. split.
  - unfold main. rewrite (parse_complete _ _ _ _ _ _ _ (CL data P)).
    change (0 <? Z.of_nat (String.length EmptyString)) with false. cbv iota.
    change (1 =? 0) with false. change (1 =? 1) with true. cbv iota.
    cbn [processLines]. unfold processSingleLine.
    assert (D : DecodeString "-adsb_reader_level=1" = Err "encoding/hex: invalid byte: U+002D '-'"%string) by reflexivity.
    rewrite D. cbv iota. reflexivity.
  - intros frame Hf R. cbn in R.
    assert (A : forall x y, (endl ("Reading: " ++ data) ++ x)%string =
      ("Reading: " ++ String "-" y)%string -> exists t, data = String "-" t).
    { intros x y E. destruct data as [|c t]; cbn in E; [discriminate|]. injection E as -> _. eexists. reflexivity. }
    assert (G : forall o, report ffmt matan2 1 data o -> exists x, o = (endl ("Reading: " ++ data) ++ x)%string)
      by (intros o [ | | | ]; eexists; reflexivity).
    destruct (G _ R) as [x E]. destruct (A x _ (eq_sym E)) as [t ->].
    inversion Hf as [|a b x' y s l Ha]; subst. discriminate.
Qed.

Theorem main_no_data : forall ffmt matan2 number open,
  main ffmt matan2 number open [] = Exit 0 "No data provided"%string.
Proof. reflexivity. Qed.

(* any other level is refused, before anything is read or printed *)
Theorem main_level : forall ffmt matan2 number open words f level rest,
  command_line number words EmptyString 0 f level rest ->
  (main ffmt matan2 number open words = Crash EmptyString <-> ~ (0 <= level <= 2)).
Proof.
  intros ffmt matan2 number open words f level rest H. split.
  - intros E L. destruct (String.eqb_spec f EmptyString) as [F|F].
    + subst. destruct words as [|w words].
      * cbn in E. discriminate.
      * destruct (main_first_word ffmt matan2 number open w words level rest H L) as (o & E' & _). congruence.
    + destruct (open f) as [|content []] eqn:O.
      * rewrite (main_bad_file ffmt matan2 number open words f level rest H L F) in E; [discriminate|auto].
      * rewrite (main_bad_file ffmt matan2 number open words f level rest H L F) in E; [discriminate|].
        right; left; exists content; exact O.
      * destruct (readFile (File content false)) as [ls|] eqn:R.
        -- apply read_lines in R. destruct R as [R1 R2].
           destruct (main_file ffmt matan2 number open words f level rest content ls H L F O R1 R2) as (o & E' & _). congruence.
        -- rewrite (main_bad_file ffmt matan2 number open words f level rest H L F) in E; [discriminate|].
           right; right. exists content. split; [exact O|]. intro S.
           destruct (lines_unique content) as (ls & U & _).
           rewrite (proj2 (read_lines content ls) (conj U S)) in R. discriminate.
  - intro L. unfold main. rewrite (parse_complete _ _ _ _ _ _ _ H).
    destruct (Z.eqb_spec level 0); [lia|]. destruct (Z.eqb_spec level 1); [lia|]. destruct (Z.eqb_spec level 2); [lia|]. reflexivity.
Qed.

(* a command line that cannot be read: nothing is processed *)
Theorem main_bad_words : forall ffmt matan2 number open words,
  (forall f level rest, ~ command_line number words EmptyString 0 f level rest) ->
  exists code, (code = 0 \/ code = 2) /\ main ffmt matan2 number open words = Exit code EmptyString.
Proof.
  intros ffmt matan2 number open words H. unfold main.
  destruct (parseFlags number words EmptyString 0) as [f l r|code] eqn:E.
  - exfalso. exact (H _ _ _ (parse_sound _ _ _ _ _ _ _ E)).
  - exists code. split; [exact (parse_exit_code _ _ _ _ _ E)|reflexivity].
Qed.

(* reading a command line is not ambiguous *)
Theorem command_line_unique : forall number words f l f1 l1 r1 f2 l2 r2,
  command_line number words f l f1 l1 r1 -> command_line number words f l f2 l2 r2 -> f1 = f2 /\ l1 = l2 /\ r1 = r2.
Proof.
  intros. apply parse_complete in H, H0. rewrite H in H0. injection H0 as <- <- <-. auto.
Qed.

(* a file with both kinds of line ends, options in both forms *)
Example main_file_example :
  let number := fun s => if String.eqb s "2" then Some 2 else None in
  let content := ("8D4840D6202CC371C32CE0576098" ++ String carriage_return (String newline ("zz" ++ String newline "5D")))%string in
  command_line number ["--adsb_reader_level"; "2"; "-file=frames.txt"]%string EmptyString 0 "frames.txt" 2 [] /\
  lines_of content ["8D4840D6202CC371C32CE0576098"; "zz"; "5D"]%string /\ short_lines content.
Proof.
  cbv zeta. split; [apply parse_sound; reflexivity|].
  apply read_lines. vm_compute. reflexivity.
Qed.
