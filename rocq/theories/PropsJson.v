(** C110: configuration and environment files in JSON. *)
From Verif Require Import PropsConf PropsLines Dotenv Facts StrFacts.

(** The file [p] holds the members [d], as a JSON object or in lines. *)
Inductive says (loads : string -> option json) (file : string -> option string) (p : string) (d : config) : Prop :=
| says_json text : file p = Some text -> loads text = Some (JTruthy (Ok d)) -> says loads file p d
| says_lines text : file p = Some text -> loads text = None \/ loads text = Some JFalsy ->
    parse_lines "#" (split_char line_break text) = Ok d -> says loads file p d.

Lemma says_load loads file p d : p <> "" -> says loads file p d -> load loads file p = Ok d.
Proof.
  intros N H. unfold load. destruct p as [|c p]; [contradiction|]. cbn [is_empty]. unfold parse_text.
  destruct H as [text F J|text F J L]; rewrite F; [rewrite J; reflexivity|]. destruct J as [->| ->]; exact L.
Qed.

(** A path as the tool sees it: absolute, or from the directory of the configuration file. *)
Definition at_conf (conf_path setting f : string) : Prop :=
  exists c r, setting = String c r /\ f = (if Ascii.eqb c slash then setting else dirname conf_path ++ "/" ++ setting).

(** Whichever way the two files are written: the credentials are the members of the environment file that
    the four settings of the configuration file name, and the sql files are those of its files_directory;
    otherwise there is a ValueError. *)
Theorem C110_json_partial : forall loads file cwd name path conf dir df env ef envd,
  resolve_config file cwd name = Ok path -> path <> "" -> says loads file path conf ->
  dget "files_directory" conf = Some (CStr dir) -> at_conf path dir df ->
  dget "env_file" conf = Some (CStr env) -> at_conf path env ef -> says loads file ef envd ->
  (forall s t, In s settings -> dget s conf <> Some (CUnhashable t)) ->
  sql_files loads file cwd (Some name) = Ok (CStr df)
  /\ match driver_credentials loads file cwd (Some name) with
     | Ok d => exists h b u p, named conf envd "hostname_key" h /\ named conf envd "database_key" b
                 /\ named conf envd "username_key" u /\ named conf envd "password_key" p
                 /\ d = [("host", h); ("database", b); ("user", u); ("password", p)]
     | Raise e => (exists m, e = ValueError m) /\ exists s, In s settings /\ forall v, ~ named conf envd s v
     end.
Proof.
  intros loads file cwd name path conf dir df env ef envd R Np C Dd Ad De Ae E U.
  assert (Rel : forall s f, at_conf path s f -> relative_to (CStr s) path = Ok f /\ f <> "").
  { intros s f (c & r & -> & ->). cbn. destruct (Ascii.eqb c slash); split; try reflexivity; try discriminate.
    destruct (dirname path); discriminate. }
  set (conf2 := dset "env_file" (CStr ef) (dset "files_directory" (CStr df) conf)).
  assert (L : load_config loads file cwd (Some name) = Ok conf2).
  { unfold load_config. rewrite R. cbn [bind]. rewrite (says_load _ _ _ _ Np C). cbn [bind]. rewrite Dd.
    rewrite (proj1 (Rel _ _ Ad)). cbn [bind]. rewrite dget_dset. change (keqb "files_directory" "env_file") with false. cbn iota.
    replace (if keqb "env_file" "files_directory" then Some (CStr df) else dget "env_file" conf) with (Some (CStr env)).
    rewrite (proj1 (Rel _ _ Ae)). reflexivity. }
  assert (G : forall k, k <> "env_file" -> k <> "files_directory" -> dget k conf2 = dget k conf).
  { intros k N1 N2. unfold conf2. rewrite !dget_dset. simpl. destruct (String.eqb_spec k "env_file"); [contradiction|].
    destruct (String.eqb_spec k "files_directory"); [contradiction|]. reflexivity. }
  split.
  - unfold sql_files. rewrite L. cbn [bind]. unfold conf2. rewrite !dget_dset. reflexivity.
  - unfold driver_credentials. rewrite L. cbn [bind]. unfold conf2 at 1. rewrite dget_dset. cbn.
    unfold db_credentials. rewrite (says_load _ _ _ _ (proj2 (Rel _ _ Ae)) E). cbn [bind].
    assert (S : forall s, In s settings -> dget s conf2 = dget s conf).
    { intros s [<-|[<-|[<-|[<-|[]]]]]; apply G; discriminate. }
    assert (N : forall s v, In s settings -> named conf2 envd s v <-> named conf envd s v).
    { intros s v I. unfold named. rewrite (S s I). tauto. }
    pose proof (C64_credentials_partial envd conf2) as K. destruct (credentials envd conf2) as [d|e].
    + destruct K as (h & b & u & p & H1 & H2 & H3 & H4 & ->); [intros s t I; rewrite (S s I); apply U, I|].
      exists h, b, u, p. rewrite <- !N by (simpl; tauto). auto.
    + destruct K as (M & s & I & K); [intros s t I; rewrite (S s I); apply U, I|]. split; [exact M|]. exists s. split; [exact I|].
      intros v H. apply (K v), N; assumption.
Qed.

(** JSON that is no object: whatever Python's dict says of it ends the command. *)
Theorem C110_no_object : forall loads file cwd name path text e,
  resolve_config file cwd name = Ok path -> path <> "" -> file path = Some text -> loads text = Some (JTruthy (Raise e)) ->
  driver_credentials loads file cwd (Some name) = Raise e /\ sql_files loads file cwd (Some name) = Raise e.
Proof.
  intros loads file cwd name path text e R N F J.
  assert (L : load_config loads file cwd (Some name) = Raise e).
  { unfold load_config. rewrite R. cbn [bind]. unfold load. destruct path; [contradiction|]. cbn [is_empty]. rewrite F. unfold parse_text.
    rewrite J. reflexivity. }
  unfold driver_credentials, sql_files. rewrite L. split; reflexivity.
Qed.

(** Full statement of C110: also for the object without members, and settings that are arrays or objects.
    The empty object is not taken for JSON but read as lines, which ends with a syntax error instead of the
    message about the missing setting. *)
Theorem C110_refuted : exists loads file, loads "{}" = Some JFalsy /\ file "/srv/mygrate.conf" = Some "{}"
  /\ exists m, driver_credentials loads file "/srv" (Some "mygrate.conf") = Raise (DotEnvSyntaxError m).
Proof.
  exists (fun t => if String.eqb t "{}" then Some JFalsy else None), (fun p => if String.eqb p "/srv/mygrate.conf" then Some "{}" else None).
  split; [reflexivity|]. split; [reflexivity|]. eexists. vm_compute. reflexivity.
Qed.

(** A configuration in JSON, its environment in lines. *)
Example ex_C110 :
  let conf := ("files_directory", CStr "sql") :: ("env_file", CStr "../.env") :: conf4 in
  let text := "{...}" in
  let env := "H=localhost" ++ String line_break ("U=root" ++ String line_break ("P='secret'" ++ String line_break "D=shop")) in
  let file p := if String.eqb p "/srv/app/mygrate.conf" then Some text else if String.eqb p "/srv/app/../.env" then Some env else None in
  let loads t := if String.eqb t text then Some (JTruthy (Ok conf)) else None in
  resolve_config file "/srv/app/deep" "mygrate.conf" = Ok "/srv/app/mygrate.conf"
  /\ says loads file "/srv/app/mygrate.conf" conf
  /\ says loads file "/srv/app/../.env" [("H", CStr "localhost"); ("U", CStr "root"); ("P", CStr "secret"); ("D", CStr "shop")]
  /\ at_conf "/srv/app/mygrate.conf" "sql" "/srv/app/sql" /\ at_conf "/srv/app/mygrate.conf" "../.env" "/srv/app/../.env"
  /\ driver_credentials loads file "/srv/app/deep" (Some "mygrate.conf")
     = Ok [("host", CStr "localhost"); ("database", CStr "shop"); ("user", CStr "root"); ("password", CStr "secret")].
Proof.
  cbv zeta. split; [vm_compute; reflexivity|]. split; [eapply says_json; reflexivity|].
  split; [eapply says_lines; [reflexivity|left; reflexivity|vm_compute; reflexivity]|].
  split; [eexists _, _; split; vm_compute; reflexivity|]. split; [eexists _, _; split; vm_compute; reflexivity|]. vm_compute. reflexivity.
Qed.

Print Assumptions C110_json_partial.
Print Assumptions C110_no_object.
Print Assumptions C110_refuted.
