(** A command line and the two jobs on text: -i, which compresses a text of commands, and
    --recode, which replays it.  What main, src/bin/divans.rs:1627-1659, does with the plan
    of ModelArgs.v for them; with ModelLine.v this is every job.  One turn of the loop. *)
From Verif Require Import Prelude ModelMux ModelHeader ModelRecode ModelCmd ModelPriors ModelCodec ModelPm ModelTop ModelEnc ModelDec ModelThread ModelIo ModelHybrid ModelTool ModelText ModelLine.
From Verif Require ModelArgs.

Section Run.
Context (dict : dict_fn) (wl : word_len_fn) (D : dims).
(** compress_ir, src/bin/divans.rs:945-978: the window comes from the first line of the
    text, 967, the other settings from the command line.  The constructor asserts that
    the mixing value is below 15, src/codec/interface.rs:360, after the first line has
    been read. *)
Definition text_job (p : ModelArgs.plan) (fuel n : nat) (src : list line_event) (f : outfile) : outfile * tend :=
  let o := ModelArgs.p_opts p in
  if or_zero (ModelArgs.o_mixing o) <? 15 then tool_compress_ir dict wl D (line_cfg o) fuel n src f
  else
    match first_line src with
    | None => (f, TError)
    | Some (l, _) => match window_parse (trim l) with None => (f, TError) | Some _ => (f, TPanic) end
    end.
(** the program on a command line whose job is one on text; [None]: another job *)
Definition run_text_line (args : list (list Z)) (fuel n : nat) (src : list line_event) (f : outfile) : option (outfile * tend) :=
  match ModelArgs.main args with
  | ModelArgs.MShown => None
  | ModelArgs.MPanic => Some (f, TPanic)
  | ModelArgs.MRun p =>
      match ModelArgs.p_job p with
      | ModelArgs.JText => Some (text_job p fuel n src f)
      | ModelArgs.JRecode => Some (tool_recode dict fuel n src f)
      | _ => None
      end
  end.
End Run.
