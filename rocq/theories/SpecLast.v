(** The last words of a server: what the theorems of Props_Last.v are stated with. *)
From Verif Require Import Bytes Err FS Prog Transfer SpecGit.

(** [last_words cfg op code t]: with the outcome [cfg] of reading the configuration and
    the operation [op] on the command line, a server may end with the status [code]
    and the line [t] on standard error. *)
Inductive last_words (cfg : gres config) (op : bytes) : Z -> bytes -> Prop :=
| lw_config e : cfg = GErr e ->
    last_words cfg op (match g_code e with GOther => 2 | _ => 1 end) (git_says e)
| lw_value c e : cfg = GOk c -> cf_str c = GErr e -> g_code e <> GNotFound ->
    last_words cfg op (match g_code e with GOther => 2 | _ => 1 end) (git_says e)
| lw_operation : op <> bs "upload" -> op <> bs "download" ->
    last_words cfg op 2 (bs "unknown command or operation")
| lw_header : last_words cfg op 2 (bs "malformed or unknown pkt-line header")
| lw_io t : last_words cfg op 2 (bs "fatal: I/O error: " ++ t).
