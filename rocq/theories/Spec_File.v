(** Vocabulary of the data file properties. *)
From Verif Require Import Base ErrorValuesM DataFileM Spec_EV.
Local Open Scope N_scope.

(** A directory and a file name joined with one '/'. *)
Definition joined (dir name path : list N) : Prop :=
  (exists d, dir = d ++ [47] /\ path = dir ++ name) \/ ((forall d, dir <> d ++ [47]) /\ path = dir ++ [47] ++ name).

(** The letters of the shipped files, line by line, in lower case (the capital letter
    U+0130 of the eighth line becomes i). *)
Definition latin_groups : list word :=
  [[97; 225; 224; 259; 7855; 7857; 7861; 7859; 226; 7845; 7847; 7851; 7849; 462; 229; 507; 228; 479; 227; 551; 481; 261; 257; 7843; 513; 515; 7841; 7863; 7853; 7681; 11365; 7567];
   [98; 7683; 7685; 7687; 384];
   [99; 263; 265; 269; 267; 231; 7689; 572; 392];
   [100; 271; 7691; 7697; 7693; 7699; 7695; 273; 598];
   [101; 233; 232; 277; 234; 7871; 7873; 7877; 7875; 283; 235; 7869; 279; 553; 7709; 281; 275; 7703; 7701; 7867; 517; 519; 7865; 7879; 7705; 7707; 583];
   [103; 501; 287; 285; 487; 289; 291; 7713; 485; 608];
   [104; 293; 543; 7719; 7715; 7721; 7717; 7723; 7830];
   [105; 237; 236; 301; 238; 464; 239; 7727; 297; 303; 299; 7881; 521; 523; 7883; 7725; 616; 7547; 7574; 105; 105];
   [106; 309; 585; 496; 567];
   [107; 7729; 489; 311; 7731; 7733; 409; 11370];
   [108; 314; 318; 316; 7735; 7737; 7741; 7739; 322];
   [109; 7743; 7745; 7747];
   [110; 324; 505; 328; 241; 7749; 326; 7751; 7755; 7753; 110];
   [111; 243; 242; 335; 244; 7889; 7891; 7895; 7893; 466; 246; 555; 337; 245; 7757; 7759; 557; 559; 111; 856; 561; 248; 511; 491; 493; 333; 7763; 7761; 7887; 525; 527; 417; 7899; 7901; 7905; 7903; 7907; 7885; 7897; 629];
   [112; 7765; 7767; 7549; 421; 112; 771];
   [114; 341; 345; 7769; 343; 529; 531; 7771; 7773; 7775; 589];
   [115; 347; 7781; 349; 353; 7783; 7777; 351; 7779; 7785; 537; 115; 809];
   [116; 357; 7787; 355; 7789; 539; 7793; 7791; 359; 11366; 429; 648; 7831];
   [117; 250; 249; 365; 251; 468; 367; 252; 472; 476; 474; 470; 369; 361; 7801; 371; 363; 7803; 7911; 533; 535; 432; 7913; 7915; 7919; 7917; 7921; 7909; 7795; 7799; 7797];
   [118; 7805; 7807];
   [119; 7811; 7809; 373; 7813; 7815; 7817; 7832];
   [120; 7821; 7819];
   [253; 7923; 375; 7833; 255; 7929; 7823; 563; 7927; 7925; 591; 436];
   [122; 378; 7825; 382; 380; 7827; 7829; 438]].
Definition greek_groups : list word :=
  [[945; 940];
   [949; 941];
   [951; 942];
   [953; 943; 970; 912];
   [959; 972];
   [965; 973; 971; 944];
   [969; 974]].
Definition shipped_groups : list word := latin_groups ++ greek_groups.
(** A case folding that agrees with Unicode on the letters of the files: they are all in
    lower case but U+0130. *)
Definition folds_shipped (E : env) : Prop :=
  e_lower E 304 = 105 /\ forall g l, In g shipped_groups -> In l g -> e_lower E l = l.
(** The shipped files are where the program looks. *)
Definition shipped (W : world) : Prop :=
  forall g, exists f, f <> [] /\ findDataFile W (data_file g) = Ok f /\ w_read W f = Some (shipped_file g).

(** The prices of the standard errors: 30 for letters of one group and for neighbouring
    keys (the bottom row is left out, C28). *)
Definition one_group (a b : N) : bool := existsb (fun g => memb a g && memb b g) shipped_groups.
Definition near_keys (a b : N) : bool := (side_by_side a b && negb (in_row 3 a)) || just_below a b || just_below b a.
Definition standard_price (a b : N) : Z :=
  if a =? b then 0%Z else if near_keys a b || one_group a b then 30%Z else 100%Z.

(** The lines of a file: each ended by a line feed, which the last one may lack if it is
    not empty. *)
Definition file_lines (bytes : list N) (lines : list (list N)) : Prop :=
  Forall (fun l => ~ In 10 l) lines /\
  (bytes = concat (map (fun l => l ++ [10]) lines) \/
   exists init last, lines = init ++ [last] /\ last <> [] /\ bytes = concat (map (fun l => l ++ [10]) init) ++ last).
(** The text of a line: what is before its first NUL. *)
Definition line_text (line text : list N) : Prop :=
  ~ In 0 text /\ (line = text \/ exists rest, line = text ++ 0 :: rest).
(** setGroupError with 30 for each word in turn that is not empty, until one throws. *)
Fixpoint set_groups (ws : list word) (e : errvals) : errvals * outcome unit :=
  match ws with
  | [] => (e, Ok tt)
  | [] :: r => set_groups r e
  | w :: r => match ev_do (SetGroupError w 30%Z) e with
              | (e', Ok _) => set_groups r e'
              | stopped => stopped
              end
  end.
