(** The authentication set up by the command line (/repo/src/bin/s3-server.rs).  Definitions only. *)
From Verif Require Export M_Auth.

(* [Args] and [main], /repo/src/bin/s3-server.rs:46-50 and 84-89: the options --access-key and
   --secret-key.  Each requires the other (structopt), otherwise the program ends with a usage
   error: [None].  [Some None] is a server without a provider.  The other options, the listening
   socket and the logging are not modelled. *)
Definition command_line_auth (access_key secret_key : option bytes)
    : option (option (bytes -> result s3_code bytes)) :=
  match access_key, secret_key with
  | Some k, Some s => Some (Some (simple_auth [(k, s)]))
  | None, None => Some None
  | _, _ => None
  end.
