(** Python's [argparse] (3.11) for a parser whose arguments are all options with no value
    or exactly one ([ArgumentParser.parse_args], [_parse_known_args], [_parse_optional],
    [_get_option_tuples], [consume_optional]); and for a parser with such options and
    subcommands.  Nothing here is jqtrade code.

    [K]: the options; [reg]: the option strings, with the option and whether it takes a
    value.  An exit with a usage or help message is None. *)
From Verif Require Import PyBase PyStr MTasks.
Open Scope list_scope.

Section Args.
  Context {K : Type} (reg : list (str * (K * bool))).

  (** [_get_option_tuples]: the option string, the option, the text after it *)
  Definition option_tuples_of (t : str) : list (str * (K * bool) * option str) :=
    match t with
    | a :: b :: r =>
        if (b =? DASH)%N then
          let '(p, e) := match split_eq t with Some (p, e) => (p, Some e) | None => (t, None) end in
          flat_map (fun '(s, o) => if startswith p s then [((s, o), e)] else []) reg
        else
          flat_map (fun '(s, o) => if eqb s [a; b] then [((s, o), Some r)] else if startswith t s then [((s, o), None)] else []) reg
    | _ => []
    end.

  (** an argument, an option (unknown: None) with the text after it, or ambiguous *)
  Inductive class := CArg | COpt (o : option (str * (K * bool))) (arg : option str) | CAmbiguous.

  (** [_parse_optional] *)
  Definition class_of (t : str) : class :=
    match t with
    | [] => CArg
    | c :: t' =>
        if negb (c =? DASH)%N then CArg
        else match dget t reg with
        | Some o => COpt (Some (t, o)) None
        | None =>
            match t' with
            | [] => CArg
            | _ =>
                match match split_eq t with
                      | Some (p, e) => match dget p reg with Some o => Some (COpt (Some (p, o)) (Some e)) | None => None end
                      | None => None end with
                | Some k => k
                | None =>
                    match option_tuples_of t with
                    | _ :: _ :: _ => CAmbiguous
                    | [(so, e)] => COpt (Some so) e
                    | [] => if negative_number t then CArg else if has_char 32%N t then CArg else COpt None None
                    end
                end
            end
        end
    end.

  (** [consume_optional] for an option with text after it: flags written with one dash can
      be followed by further ones.  Result: the actions, and the option that still needs the
      next token as its value. *)
  Fixpoint joined (s : str) (k : K) (val : bool) (arg : str) : option (list (K * option str) * option K) :=
    if val then Some ([(k, Some arg)], None)
    else match s, arg with
         | d :: c :: _, a :: rest =>
             if (c =? DASH)%N then None
             else match dget [d; a] reg with
                  | None => None
                  | Some (k', val') =>
                      match rest with
                      | [] => if val' then Some ([(k, None)], Some k') else Some ([(k, None); (k', None)], None)
                      | _ => option_map (fun '(l, n) => ((k, None) :: l, n)) (joined [d; a] k' val' rest)
                      end
                  end
         | _, _ => None
         end.

  (** all tokens: the actions in order *)
  Fixpoint args (toks : list str) : option (list (K * option str)) :=
    match toks with
    | [] => Some []
    | t :: rest =>
        if eqb t (lit "--") then None
        else match class_of t with
        | COpt (Some (s, (k, val))) e =>
            match match e with
                  | Some arg => joined s k val arg
                  | None => Some (if val then ([], Some k) else ([(k, None)], None))
                  end with
            | None => None
            | Some (l, None) => option_map (app l) (args rest)
            | Some (l, Some k') =>
                match rest with
                | v :: rest' =>
                    if eqb v (lit "--") then None
                    else match class_of v with
                         | CArg => option_map (fun a => l ++ (k', Some v) :: a) (args rest')
                         | _ => None
                         end
                | [] => None
                end
            end
        | _ => None
        end
    end.
End Args.
Arguments CArg {K}. Arguments COpt {K}. Arguments CAmbiguous {K}.
