(** Specification: names are text. *)
From Verif Require Import M_Base M_Path M_Fs M_Http M_Storage M_Service S_Path S_Storage S_Utf8.

(* The XML reader of the server delivers strings, as Rust's [String] has it. *)
Definition reads_text (sv : server) : Prop :=
  forall t keys, sv_xml_delete sv t = Some keys -> Forall utf8_text keys.

(* A name that can be told and typed: UTF-8, not empty, not a dot or two, without slashes. *)
Definition good_name (n : bytes) : Prop := utf8_text n /\ n <> [] /\ n <> B "." /\ n <> B ".." /\ "/"%char ∉ n.

(* All executions of the service: any requests are handled at the same time, calls may fail, the
   server may stop at any point; then it is started again, and so on. *)
Inductive any_history (e : env) : fs -> fs -> Prop :=
| any_none s : any_history e s s
| any_run s xs s1 ms s' : Forall (fun x => reads_text x.1) xs ->
    psteps e s ((fun x : server * http_request => service e x.1 x.2) <$> xs) s1 ms -> any_history e s1 s' -> any_history e s s'.
