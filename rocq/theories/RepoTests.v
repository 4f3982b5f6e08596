(** The results the project's own tests record, computed by the model.

    The numbers are taken from the files under tests/: the coordinates from
    tests/data_object_test.h and the expected results from the test named in
    each comment. Decimals are given as the double a C compiler reads them as.
    These runs are evidence that the model is the program, not part of any
    claim. They cover only the inputs written here. *)
From stdpp Require Import prelude list.
From Coq Require Import NArith ZArith.
From Verif Require Import Base World Mem Float Spi Dist Options Arrays Digraph Seeds Util NngClustering ClusSpec ScClaims DistProof Example1 FailClaims Hier HierClaims.

(** tests/data_object_test.h 31-130 and 143-148. *)
Definition coord1 : list double :=
  [(SpecFloat.S754_finite false 8210567509017098 (-47)); (SpecFloat.S754_finite false 8072184418104466 (-49)); (SpecFloat.S754_finite false 7612602772180422 (-47));
   (SpecFloat.S754_finite false 4628426461192277 (-47)); (SpecFloat.S754_finite false 6475405022722586 (-46)); (SpecFloat.S754_finite false 6232686757767685 (-46));
   (SpecFloat.S754_finite false 6483783195773123 (-46)); (SpecFloat.S754_finite false 6538856097135121 (-46)); (SpecFloat.S754_finite false 6127645785221314 (-46));
   (SpecFloat.S754_finite false 4552037670950214 (-47)); (SpecFloat.S754_finite false 7895475694362912 (-47)); (SpecFloat.S754_finite false 5802516713635114 (-46));
   (SpecFloat.S754_finite false 5424473864864520 (-47)); (SpecFloat.S754_finite false 8398767448682865 (-47)); (SpecFloat.S754_finite false 5984387195868333 (-46));
   (SpecFloat.S754_finite false 5770342434947226 (-46)); (SpecFloat.S754_finite false 5220136542571466 (-46)); (SpecFloat.S754_finite false 5970788506424744 (-46));
   (SpecFloat.S754_finite false 6001642948946836 (-48)); (SpecFloat.S754_finite false 4936976304806499 (-46)); (SpecFloat.S754_finite false 8890240209468227 (-49));
   (SpecFloat.S754_finite false 5141771235042940 (-47)); (SpecFloat.S754_finite false 7835642558563528 (-47)); (SpecFloat.S754_finite false 6156453904662720 (-48));
   (SpecFloat.S754_finite false 5584074469152857 (-46)); (SpecFloat.S754_finite false 6851521456752573 (-49)); (SpecFloat.S754_finite false 6099732756205849 (-48));
   (SpecFloat.S754_finite false 8974938844710230 (-47)); (SpecFloat.S754_finite false 6323159500313187 (-46)); (SpecFloat.S754_finite false 5365142669317355 (-46));
   (SpecFloat.S754_finite false 7511370156068947 (-47)); (SpecFloat.S754_finite false 8269726934459725 (-50)); (SpecFloat.S754_finite false 6318036163155844 (-47));
   (SpecFloat.S754_finite false 8398807418129558 (-49)); (SpecFloat.S754_finite false 5489168143880441 (-46)); (SpecFloat.S754_finite false 8864750398527263 (-48));
   (SpecFloat.S754_finite false 4832758153985797 (-47)); (SpecFloat.S754_finite false 5592955356511799 (-46)); (SpecFloat.S754_finite false 5884456894105353 (-47));
   (SpecFloat.S754_finite false 6628572446049457 (-50)); (SpecFloat.S754_finite false 5858450998794591 (-46)); (SpecFloat.S754_finite false 7461923024697721 (-50));
   (SpecFloat.S754_finite false 6044111823064195 (-46)); (SpecFloat.S754_finite false 7359266004466601 (-47)); (SpecFloat.S754_finite false 8520429237129024 (-47));
   (SpecFloat.S754_finite false 8410453445290962 (-48)); (SpecFloat.S754_finite false 5329744376246223 (-46)); (SpecFloat.S754_finite false 7033042206327229 (-46));
   (SpecFloat.S754_finite false 4571309488549407 (-46)); (SpecFloat.S754_finite false 5082176719655063 (-46)); (SpecFloat.S754_finite false 6363535045028750 (-49));
   (SpecFloat.S754_finite false 4960360119971713 (-46)); (SpecFloat.S754_finite false 7156514230717357 (-49)); (SpecFloat.S754_finite false 5301159536830093 (-46));
   (SpecFloat.S754_finite false 8870960862413407 (-51)); (SpecFloat.S754_finite false 8328946454809880 (-49)); (SpecFloat.S754_finite false 6422884606818145 (-48));
   (SpecFloat.S754_finite false 6377535680739082 (-46)); (SpecFloat.S754_finite false 4698503667662813 (-46)); (SpecFloat.S754_finite false 7060426273492711 (-47));
   (SpecFloat.S754_finite false 5805034225826814 (-46)); (SpecFloat.S754_finite false 5015172234767789 (-46)); (SpecFloat.S754_finite false 4878793316058081 (-46));
   (SpecFloat.S754_finite false 5600790775438493 (-49)); (SpecFloat.S754_finite false 4912968741092894 (-46)); (SpecFloat.S754_finite false 4916936130889630 (-46));
   (SpecFloat.S754_finite false 6522873103532559 (-47)); (SpecFloat.S754_finite false 7933889851072010 (-47)); (SpecFloat.S754_finite false 7979869914417603 (-47));
   (SpecFloat.S754_finite false 6599808518179395 (-47)); (SpecFloat.S754_finite false 8277294670683568 (-48)); (SpecFloat.S754_finite false 4574317400519281 (-49));
   (SpecFloat.S754_finite false 6538234178174078 (-48)); (SpecFloat.S754_finite false 6315534554300328 (-47)); (SpecFloat.S754_finite false 8934636976069822 (-48));
   (SpecFloat.S754_finite false 4625849065199282 (-46)); (SpecFloat.S754_finite false 6879401975408228 (-47)); (SpecFloat.S754_finite false 8920638381053071 (-49));
   (SpecFloat.S754_finite false 5676478552251059 (-46)); (SpecFloat.S754_finite false 4630330498672237 (-47)); (SpecFloat.S754_finite false 5900864351972794 (-46));
   (SpecFloat.S754_finite false 4817161414420027 (-46)); (SpecFloat.S754_finite false 5446276635085551 (-47)); (SpecFloat.S754_finite false 4617674398556907 (-48));
   (SpecFloat.S754_finite false 6288892384804711 (-46)); (SpecFloat.S754_finite false 8074490542588657 (-48)); (SpecFloat.S754_finite false 5260297392248542 (-46));
   (SpecFloat.S754_finite false 8685071410093969 (-50)); (SpecFloat.S754_finite false 7409205857784559 (-48)); (SpecFloat.S754_finite false 7189558267083282 (-47));
   (SpecFloat.S754_finite false 5537737988118004 (-47)); (SpecFloat.S754_finite false 8605712495897655 (-47)); (SpecFloat.S754_finite false 5906238905546852 (-46));
   (SpecFloat.S754_finite false 5692320034309079 (-46)); (SpecFloat.S754_finite false 6645256171606539 (-47)); (SpecFloat.S754_finite false 6011508083930591 (-48));
   (SpecFloat.S754_finite false 5266909943138917 (-46)); (SpecFloat.S754_finite false 5924765940357668 (-46)); (SpecFloat.S754_finite false 6748832137267875 (-46));
   (SpecFloat.S754_finite false 5135789047362909 (-50)); (SpecFloat.S754_finite false 4663627369935991 (-46)); (SpecFloat.S754_finite false 5182492923611113 (-46));
   (SpecFloat.S754_finite false 5726407357676181 (-46)); (SpecFloat.S754_finite false 8490768952195627 (-47)); (SpecFloat.S754_finite false 5383493782267727 (-48));
   (SpecFloat.S754_finite false 7356206089994779 (-47)); (SpecFloat.S754_finite false 6727611316561194 (-46)); (SpecFloat.S754_finite false 5471545910382261 (-49));
   (SpecFloat.S754_finite false 5873423426862017 (-46)); (SpecFloat.S754_finite false 8374676568376154 (-47)); (SpecFloat.S754_finite false 7464690345931251 (-47));
   (SpecFloat.S754_finite false 6599873890742736 (-46)); (SpecFloat.S754_finite false 8360732860979861 (-47)); (SpecFloat.S754_finite false 4668516097700246 (-48));
   (SpecFloat.S754_finite false 8398807418129558 (-49)); (SpecFloat.S754_finite false 5489168143880441 (-46)); (SpecFloat.S754_finite false 8864750398527263 (-48));
   (SpecFloat.S754_finite false 6616583300891443 (-49)); (SpecFloat.S754_finite false 6165661091888414 (-46)); (SpecFloat.S754_finite false 8200927694752200 (-49));
   (SpecFloat.S754_finite false 8410094423958167 (-47)); (SpecFloat.S754_finite false 6533490480391574 (-47)); (SpecFloat.S754_finite false 8133616472509056 (-47));
   (SpecFloat.S754_finite false 4529169940154799 (-47)); (SpecFloat.S754_finite false 8093292789557952 (-51)); (SpecFloat.S754_finite false 6024478450857418 (-46));
   (SpecFloat.S754_finite false 4997137570059984 (-47)); (SpecFloat.S754_finite false 5443943840847317 (-46)); (SpecFloat.S754_finite false 5557034645883892 (-46));
   (SpecFloat.S754_finite false 8554951861547609 (-47)); (SpecFloat.S754_finite false 8165312102999047 (-51)); (SpecFloat.S754_finite false 5907857175556705 (-46));
   (SpecFloat.S754_finite false 4876627295743548 (-46)); (SpecFloat.S754_finite false 7955098990567158 (-48)); (SpecFloat.S754_finite false 4716953226486290 (-46));
   (SpecFloat.S754_finite false 5250862773241666 (-50)); (SpecFloat.S754_finite false 6335629897312632 (-48)); (SpecFloat.S754_finite false 8837612410860170 (-47));
   (SpecFloat.S754_finite false 5353446750716330 (-47)); (SpecFloat.S754_finite false 8454944928222220 (-47)); (SpecFloat.S754_finite false 5748958921704006 (-48));
   (SpecFloat.S754_finite false 5959215240544820 (-47)); (SpecFloat.S754_finite false 8429041771277957 (-47)); (SpecFloat.S754_finite false 4891292916086359 (-46));
   (SpecFloat.S754_finite false 5369578785319059 (-48)); (SpecFloat.S754_finite false 5653618773123735 (-46)); (SpecFloat.S754_finite false 6735066814638073 (-47));
   (SpecFloat.S754_finite false 6338271328862829 (-46)); (SpecFloat.S754_finite false 7203295371846669 (-48)); (SpecFloat.S754_finite false 4643117484651737 (-46));
   (SpecFloat.S754_finite false 7468931188667862 (-48)); (SpecFloat.S754_finite false 5255513513913112 (-46)); (SpecFloat.S754_finite false 6357565242247693 (-46));
   (SpecFloat.S754_finite false 6162343768550390 (-46)); (SpecFloat.S754_finite false 4914312573000455 (-47)); (SpecFloat.S754_finite false 6789534474431399 (-49));
   (SpecFloat.S754_finite false 6874733783288226 (-46)); (SpecFloat.S754_finite false 8550412796073173 (-47)); (SpecFloat.S754_finite false 6972187668206106 (-46));
   (SpecFloat.S754_finite false 5198373038109686 (-46)); (SpecFloat.S754_finite false 5847673462673828 (-47)); (SpecFloat.S754_finite false 7003399724686109 (-47));
   (SpecFloat.S754_finite false 4914087252281598 (-48)); (SpecFloat.S754_finite false 5666911288161408 (-46)); (SpecFloat.S754_finite false 4726892178282687 (-47));
   (SpecFloat.S754_finite false 8112913847234498 (-50)); (SpecFloat.S754_finite false 5039383304889556 (-48)); (SpecFloat.S754_finite false 6018937052990915 (-49));
   (SpecFloat.S754_finite false 5110053649504765 (-46)); (SpecFloat.S754_finite false 6884697223407598 (-47)); (SpecFloat.S754_finite false 6885744028845984 (-46));
   (SpecFloat.S754_finite false 6344904216320271 (-49)); (SpecFloat.S754_finite false 4721729153153628 (-46)); (SpecFloat.S754_finite false 4511531310739226 (-46));
   (SpecFloat.S754_finite false 5903053031022952 (-46)); (SpecFloat.S754_finite false 5558430832137121 (-46)); (SpecFloat.S754_finite false 6933266926907672 (-46));
   (SpecFloat.S754_finite false 6816181710476596 (-48)); (SpecFloat.S754_finite false 5038088238521710 (-46)); (SpecFloat.S754_finite false 6609691386086683 (-48));
   (SpecFloat.S754_finite false 5613962115498692 (-49)); (SpecFloat.S754_finite false 5596675963122704 (-46)); (SpecFloat.S754_finite false 7093386289578087 (-47));
   (SpecFloat.S754_finite false 4583552875980135 (-48)); (SpecFloat.S754_finite false 8711114319364169 (-47)); (SpecFloat.S754_finite false 8851245792094639 (-47));
   (SpecFloat.S754_finite false 8297124301317857 (-47)); (SpecFloat.S754_finite false 8075698914663676 (-48)); (SpecFloat.S754_finite false 6617288677183080 (-47));
   (SpecFloat.S754_finite false 5416739002873255 (-46)); (SpecFloat.S754_finite false 8664874454615073 (-49)); (SpecFloat.S754_finite false 6879767189190510 (-48));
   (SpecFloat.S754_finite false 7361187493395116 (-47)); (SpecFloat.S754_finite false 5421281657153644 (-47)); (SpecFloat.S754_finite false 7248030752845246 (-47));
   (SpecFloat.S754_finite false 6506240817527471 (-46)); (SpecFloat.S754_finite false 7518160599144603 (-52)); (SpecFloat.S754_finite false 6917723245375012 (-48));
   (SpecFloat.S754_finite false 6807496237120236 (-46)); (SpecFloat.S754_finite false 5407003416747531 (-46)); (SpecFloat.S754_finite false 5321667240683278 (-50));
   (SpecFloat.S754_finite false 4705011720968085 (-46)); (SpecFloat.S754_finite false 5950133380052507 (-46)); (SpecFloat.S754_finite false 7141798015247483 (-47));
   (SpecFloat.S754_finite false 5017821899461054 (-47)); (SpecFloat.S754_finite false 5926588350094381 (-47)); (SpecFloat.S754_finite false 5326714579596909 (-46));
   (SpecFloat.S754_finite false 5960556679915079 (-46)); (SpecFloat.S754_finite false 6162591466529896 (-46)); (SpecFloat.S754_finite false 5480831980970179 (-46));
   (SpecFloat.S754_finite false 7092675143049427 (-50)); (SpecFloat.S754_finite false 4774857625376509 (-46)); (SpecFloat.S754_finite false 4697086652261308 (-46));
   (SpecFloat.S754_finite false 6732123149331633 (-46)); (SpecFloat.S754_finite false 5925118839609719 (-46)); (SpecFloat.S754_finite false 5688259124451330 (-48));
   (SpecFloat.S754_finite false 5062313382392313 (-47)); (SpecFloat.S754_finite false 4687364506565722 (-53)); (SpecFloat.S754_finite false 6123987454949006 (-46));
   (SpecFloat.S754_finite false 6014789659946572 (-47)); (SpecFloat.S754_finite false 6421289206650149 (-46)); (SpecFloat.S754_finite false 6611409227869548 (-46));
   (SpecFloat.S754_finite false 6759748018339691 (-46)); (SpecFloat.S754_finite false 4980128037217359 (-48)); (SpecFloat.S754_finite false 6662096326881928 (-46));
   (SpecFloat.S754_finite false 5553104410784081 (-47)); (SpecFloat.S754_finite false 8770244612146707 (-47)); (SpecFloat.S754_finite false 6459954861250938 (-49));
   (SpecFloat.S754_finite false 5528148839348914 (-47)); (SpecFloat.S754_finite false 8752467919255057 (-47)); (SpecFloat.S754_finite false 8172253838874685 (-49));
   (SpecFloat.S754_finite false 5209030243677905 (-46)); (SpecFloat.S754_finite false 7371668636365402 (-49)); (SpecFloat.S754_finite false 6386743219808497 (-46));
   (SpecFloat.S754_finite false 7121522387512596 (-49)); (SpecFloat.S754_finite false 6937316788872585 (-46)); (SpecFloat.S754_finite false 5850886006951771 (-46));
   (SpecFloat.S754_finite false 6872962531628530 (-49)); (SpecFloat.S754_finite false 8189782693049342 (-47)); (SpecFloat.S754_finite false 8933995635335387 (-47));
   (SpecFloat.S754_finite false 6457444878514865 (-46)); (SpecFloat.S754_finite false 6180655826847744 (-46)); (SpecFloat.S754_finite false 8817657664598733 (-47));
   (SpecFloat.S754_finite false 5323400000639909 (-50)); (SpecFloat.S754_finite false 4690922350271344 (-52)); (SpecFloat.S754_finite false 8805713555436994 (-47));
   (SpecFloat.S754_finite false 8976550007476922 (-48)); (SpecFloat.S754_finite false 7076445295892291 (-47)); (SpecFloat.S754_finite false 7901431282657644 (-47));
   (SpecFloat.S754_finite false 4675149477738898 (-47)); (SpecFloat.S754_finite false 8021022681912608 (-48)); (SpecFloat.S754_finite false 8314514106854018 (-51));
   (SpecFloat.S754_finite false 5778997649743590 (-47)); (SpecFloat.S754_finite false 7439613318043634 (-50)); (SpecFloat.S754_finite false 5733540778010959 (-46));
   (SpecFloat.S754_finite false 8808367582992398 (-50)); (SpecFloat.S754_finite false 5071200532569487 (-46)); (SpecFloat.S754_finite false 4714162753935925 (-46));
   (SpecFloat.S754_finite false 6747043293422135 (-47)); (SpecFloat.S754_finite false 5087210336663579 (-46)); (SpecFloat.S754_finite false 6476043407969766 (-49));
   (SpecFloat.S754_finite false 5533677852316442 (-48)); (SpecFloat.S754_finite false 8807893579131618 (-50)); (SpecFloat.S754_finite false 4946759108359566 (-46));
   (SpecFloat.S754_finite false 4957426306289458 (-46)); (SpecFloat.S754_finite false 5662529496830209 (-48)); (SpecFloat.S754_finite false 6047950226952854 (-46));
   (SpecFloat.S754_finite false 8733325650513896 (-47)); (SpecFloat.S754_finite false 4588213257169533 (-54)); (SpecFloat.S754_finite false 6679268411523604 (-46));
   (SpecFloat.S754_finite false 4900367036016813 (-46)); (SpecFloat.S754_finite false 5968111960871202 (-48)); (SpecFloat.S754_finite false 4734997390974559 (-48));
   (SpecFloat.S754_finite false 4590264576431056 (-46)); (SpecFloat.S754_finite false 5213608434174104 (-47)); (SpecFloat.S754_finite false 5281737833805802 (-46));
   (SpecFloat.S754_finite false 6279523208729920 (-48)); (SpecFloat.S754_finite false 6590206421561376 (-46)); (SpecFloat.S754_finite false 5219045615930479 (-46));
   (SpecFloat.S754_finite false 7272984916905530 (-47)); (SpecFloat.S754_finite false 5108436575763562 (-47)); (SpecFloat.S754_finite false 6652135982987301 (-46));
   (SpecFloat.S754_finite false 5204577591021319 (-49)); (SpecFloat.S754_finite false 8170326861184124 (-52)); (SpecFloat.S754_finite false 4956879963359663 (-46));
   (SpecFloat.S754_finite false 8447951541688355 (-48)); (SpecFloat.S754_finite false 4981982605470161 (-46)); (SpecFloat.S754_finite false 5921313931243289 (-47));
   (SpecFloat.S754_finite false 7653570047665775 (-48)); (SpecFloat.S754_finite false 6448523951340486 (-46)); (SpecFloat.S754_finite false 6470206813221438 (-46));
   (SpecFloat.S754_finite false 6025995952825609 (-46)); (SpecFloat.S754_finite false 4820126682930930 (-48)); (SpecFloat.S754_finite false 5072247619482850 (-47));
   (SpecFloat.S754_finite false 6845238513059926 (-47)); (SpecFloat.S754_finite false 4715937664770318 (-46)); (SpecFloat.S754_finite false 5944909697065966 (-46));
   (SpecFloat.S754_finite false 4863750800721454 (-48)); (SpecFloat.S754_finite false 5802712479481417 (-48)); (SpecFloat.S754_finite false 6705807772283977 (-47))].
Definition large : dataset := DataSet dataset_version 100 3 (Some coord1).

(** tests/data_object_test.h 132-136 and 150-155. *)
Definition coord2 : list double :=
  [(SpecFloat.S754_finite true 6343998137111241 (-52)); (SpecFloat.S754_finite true 7522669152731563 (-53)); (SpecFloat.S754_finite false 5100682902799604 (-54));
   (SpecFloat.S754_finite false 8995845139648436 (-53)); (SpecFloat.S754_finite true 7813317331379225 (-54)); (SpecFloat.S754_finite false 5862387606487874 (-52));
   (SpecFloat.S754_finite true 7203424017170024 (-56)); (SpecFloat.S754_finite true 4641026474603748 (-52)); (SpecFloat.S754_finite true 6748180666249028 (-52));
   (SpecFloat.S754_finite false 5917881321384304 (-53)); (SpecFloat.S754_finite true 6002400465663159 (-58)); (SpecFloat.S754_finite false 4896552408319437 (-51));
   (SpecFloat.S754_finite true 5823809321719856 (-56)); (SpecFloat.S754_finite true 6466049650180653 (-54)); (SpecFloat.S754_finite true 4929517654209880 (-55))].
Definition small : dataset := DataSet dataset_version 15 1 (Some coord2).

(** Fails to compile unless [b] computes to [true]. The runs on the larger data
    set are checked this way when the file is compiled; as proof terms they
    would have to be computed again, without the virtual machine, by coqchk. *)
Ltac holds b := let v := eval vm_compute in b in lazymatch v with true => exact tt end.

(** The call succeeded, with [k] clusters and the labels [l]. *)
Definition gives (r : R (ecode * option clustering * world)) (k : nat) (l : list Z) : bool :=
  match r with
  | Ok ((ER_OK, Some c'), _) => bool_decide (c_k c' = k) && bool_decide (cells c' = Some <$> l)
  | _ => false
  end.

(** tests/test_hierarchical_clustering.c. *)
Definition hier_large (k : nat) (batch : bool) (c : clustering) (w : world) :=
  hierarchical_clustering default_config builtin sort_edges cap (Some large) k batch (Some c) w.

Definition hier_large_1 : unit := ltac:(holds (gives (hier_large 20 true (new_clustering 100) world0) 5
  [2; 3; 3; 2; 2; 3; 0; 0; 4; 3; 2; 1; 1; 0; 4; 3; 0; 2; 0; 4;
   3; 1; 3; 0; 0; 0; 4; 0; 4; 0; 3; 4; 3; 1; 0; 0; 3; 4; 1; 0;
   3; 2; 1; 2; 2; 2; 0; 2; 1; 4; 3; 4; 4; 4; 1; 0; 3; 1; 3; 1;
   1; 1; 4; 4; 3; 4; 4; 1; 2; 3; 1; 4; 2; 3; 4; 0; 0; 4; 1; 1;
   3; 2; 1; 0; 2; 1; 0; 2; 2; 2; 4; 2; 1; 2; 2; 1; 3; 4; 3; 0]%Z)).

Definition hier_large_2 : unit := ltac:(holds (gives (hier_large 20 false (new_clustering 100) world0) 4
  [3; 0; 2; 3; 3; 2; 1; 1; 3; 2; 3; 0; 1; 0; 2; 2; 1; 3; 0; 2;
   2; 0; 1; 1; 0; 1; 2; 1; 2; 0; 2; 2; 2; 0; 1; 1; 2; 2; 0; 0;
   3; 3; 0; 3; 3; 0; 1; 3; 0; 2; 0; 2; 2; 2; 0; 0; 2; 0; 2; 1;
   0; 0; 3; 3; 3; 3; 1; 1; 3; 2; 0; 1; 3; 2; 2; 1; 1; 3; 0; 0;
   2; 3; 0; 1; 3; 0; 1; 3; 3; 3; 3; 2; 0; 3; 3; 1; 0; 3; 2; 0]%Z)).

Definition hier_large_3 : unit := ltac:(holds (gives (hier_large 20 true (old_clustering 2
  [1; 1; 0; 0; 0; 1; 1; 0; 1; 1; 0; 1; 0; 0; 0; 1; 1; 0; 1; 1;
   1; 0; 1; 1; 1; 1; 1; 0; 1; 0; 0; 1; 1; 1; 0; 1; 0; 0; 1; 1;
   1; 0; 0; 0; 1; 0; 0; 0; 1; 1; 0; 0; 0; 0; 0; 0; 0; 1; 1; 0;
   1; 0; 1; 1; 0; 0; 0; 0; 1; 1; 0; 1; 0; 1; 0; 1; 0; 1; 1; 1;
   0; 1; 1; 0; 0; 1; 0; 0; 1; 1; 1; 1; 0; 0; 0; 0; 1; 0; 1; 0]%Z) (world_old (fun _ => false))) 4
  [1; 1; 3; 3; 3; 0; 0; 2; 0; 0; 3; 1; 2; 2; 3; 1; 0; 3; 1; 0;
   0; 2; 1; 1; 1; 0; 1; 2; 0; 2; 3; 0; 0; 1; 2; 0; 3; 2; 1; 1;
   1; 3; 2; 3; 1; 2; 2; 2; 1; 0; 2; 2; 3; 3; 2; 2; 3; 1; 0; 2;
   1; 2; 1; 0; 3; 3; 2; 2; 1; 0; 2; 0; 3; 1; 3; 0; 2; 1; 1; 1;
   2; 1; 1; 2; 3; 1; 2; 2; 1; 1; 0; 1; 2; 3; 2; 2; 1; 3; 0; 2]%Z)).

Definition hier_large_4 : unit := ltac:(holds (gives (hier_large 20 false (old_clustering 2
  [1; 1; 0; 0; 0; 1; 1; 0; 1; 1; 0; 1; 0; 0; 0; 1; 1; 0; 1; 1;
   1; 0; 1; 1; 1; 1; 1; 0; 1; 0; 0; 1; 1; 1; 0; 1; 0; 0; 1; 1;
   1; 0; 0; 0; 1; 0; 0; 0; 1; 1; 0; 0; 0; 0; 0; 0; 0; 1; 1; 0;
   1; 0; 1; 1; 0; 0; 0; 0; 1; 1; 0; 1; 0; 1; 0; 1; 0; 1; 1; 1;
   0; 1; 1; 0; 0; 1; 0; 0; 1; 1; 1; 1; 0; 0; 0; 0; 1; 0; 1; 0]%Z) (world_old (fun _ => false))) 4
  [1; 0; 3; 3; 3; 0; 0; 2; 0; 0; 3; 0; 2; 2; 3; 1; 0; 3; 1; 0;
   0; 2; 1; 1; 1; 0; 0; 2; 0; 2; 3; 0; 0; 1; 2; 0; 3; 3; 0; 0;
   1; 3; 2; 3; 1; 2; 2; 2; 0; 0; 2; 3; 3; 3; 2; 2; 3; 1; 0; 2;
   1; 2; 1; 0; 3; 3; 2; 2; 1; 0; 2; 0; 3; 0; 3; 0; 2; 1; 1; 1;
   3; 1; 1; 2; 3; 1; 2; 3; 1; 1; 0; 1; 2; 3; 3; 2; 1; 3; 0; 2]%Z)).

(** tests/test_nng_clustering_batches.c. *)
Definition prim_points : list nat :=
  [0; 1; 2; 3; 4; 5; 6; 7; 8; 9; 20; 21; 22; 23; 24; 25; 26; 27; 28; 29;
   40; 41; 42; 43; 44; 45; 46; 47; 48; 49; 60; 61; 62; 63; 64; 65; 66; 67; 68; 69;
   80; 81; 82; 83; 84; 85; 86; 87; 88; 89].
Definition batch_options (size : nat) (um : unassigned_method) (radius : option double) (p : bool) (b : nat) : options :=
  {| o_version := o_version default_options; o_size := size; o_num_types := 0; o_tcons := None; o_len_tlabels := 0; o_tlabels := None; o_seed := SM_BATCHES;
     o_len_prim := if p then 50 else 0; o_prim := if p then Some prim_points else None; o_pum := um; o_sum := UM_IGNORE;
     o_srad := (match radius with Some _ => RM_USE_SUPPLIED | None => RM_NO_RADIUS end); o_srad_val := default d_zero radius;
     o_prad := RM_USE_SEED_RADIUS; o_prad_val := d_zero; o_2rad := RM_NO_RADIUS; o_2rad_val := d_zero; o_batch := b |}.
Definition batch_large (o : options) := sc_clustering default_config builtin (Some large) (Some o) (Some (new_clustering 100)) world0.

Definition batch_large_1 : unit := ltac:(holds (gives (batch_large (batch_options 2 UM_IGNORE None false 10)) 37
  [0; 1; 2; 3; 3; 4; 5; 6; 7; 31; 0; 8; 9; 10; 11; 12; 13; 14; 15; 4294967295;
   4294967295; 16; 17; 18; 4294967295; 19; 20; 19; 20; 21; 36; 22; 4294967295; 23; 22; 4294967295; 11; 4294967295; 8; 10;
   24; 25; 4294967295; 26; 27; 4294967295; 6; 17; 28; 4294967295; 12; 4294967295; 4294967295; 4294967295; 4294967295; 15; 4294967295; 4294967295; 4; 5;
   28; 29; 4294967295; 7; 24; 4294967295; 30; 31; 4294967295; 2; 23; 30; 25; 4294967295; 32; 33; 33; 32; 34; 29;
   4294967295; 35; 4294967295; 18; 4294967295; 16; 13; 4294967295; 14; 26; 4294967295; 27; 34; 4294967295; 35; 9; 1; 4294967295; 36; 21]%Z)).

Definition batch_large_2 : unit := ltac:(holds (gives (batch_large (batch_options 10 UM_IGNORE None false 1)) 7
  [0; 1; 2; 4294967295; 4294967295; 2; 3; 3; 4294967295; 2; 0; 3; 4294967295; 4294967295; 4294967295; 1; 5; 0; 4; 5;
   2; 6; 4294967295; 4; 4; 5; 4294967295; 5; 4294967295; 4; 1; 5; 2; 6; 5; 4294967295; 4294967295; 5; 3; 3;
   0; 4294967295; 1; 0; 0; 4; 3; 4294967295; 6; 4294967295; 1; 5; 2; 0; 3; 4; 4294967295; 6; 2; 3;
   6; 6; 0; 4294967295; 0; 4294967295; 5; 2; 4294967295; 2; 6; 5; 4294967295; 1; 4294967295; 3; 3; 4294967295; 1; 6;
   2; 4; 6; 4; 4294967295; 6; 4294967295; 4294967295; 4294967295; 4294967295; 4294967295; 0; 1; 4294967295; 4; 4294967295; 1; 4294967295; 1; 4]%Z)).

Definition batch_large_3 : unit := ltac:(holds (gives (batch_large (batch_options 2 UM_ANY_NEIGHBOR None false 10)) 37
  [0; 1; 2; 3; 3; 4; 5; 6; 7; 31; 0; 8; 9; 10; 11; 12; 13; 14; 15; 11;
   4; 16; 17; 18; 6; 19; 20; 19; 20; 21; 36; 22; 4; 23; 22; 13; 11; 22; 8; 10;
   24; 25; 12; 26; 27; 21; 6; 17; 28; 20; 12; 22; 4; 24; 8; 15; 20; 23; 4; 5;
   28; 29; 24; 7; 24; 7; 30; 31; 3; 2; 23; 30; 25; 1; 32; 33; 33; 32; 34; 29;
   2; 35; 17; 18; 25; 16; 13; 35; 14; 26; 7; 27; 34; 27; 35; 9; 1; 7; 36; 21]%Z)).

Definition batch_large_4 : unit := ltac:(holds (gives (batch_large (batch_options 10 UM_ANY_NEIGHBOR None false 1)) 7
  [0; 1; 2; 1; 1; 2; 3; 3; 0; 2; 0; 3; 3; 3; 0; 1; 5; 0; 4; 5;
   2; 6; 0; 4; 4; 5; 0; 5; 0; 4; 1; 5; 2; 6; 5; 5; 5; 5; 3; 3;
   0; 4; 1; 0; 0; 4; 3; 1; 6; 0; 1; 5; 2; 0; 3; 4; 0; 6; 2; 3;
   6; 6; 0; 5; 0; 5; 5; 2; 1; 2; 6; 5; 0; 1; 0; 3; 3; 0; 1; 6;
   2; 4; 6; 4; 0; 6; 3; 4; 0; 0; 5; 0; 1; 0; 4; 6; 1; 5; 1; 4]%Z)).

Definition batch_large_5 : unit := ltac:(holds (gives (batch_large (batch_options 2 UM_IGNORE (Some (SpecFloat.S754_finite false 5629499534213120 (-48))) false 10)) 35
  [0; 1; 2; 3; 3; 4; 5; 6; 7; 4294967295; 0; 8; 9; 10; 11; 12; 13; 14; 15; 4294967295;
   4294967295; 16; 17; 18; 4294967295; 19; 20; 19; 20; 21; 34; 22; 4294967295; 23; 22; 4294967295; 11; 4294967295; 8; 10;
   24; 25; 4294967295; 26; 27; 4294967295; 6; 17; 28; 4294967295; 12; 4294967295; 4294967295; 4294967295; 4294967295; 15; 4294967295; 4294967295; 4; 5;
   28; 29; 4294967295; 7; 24; 4294967295; 30; 4294967295; 4294967295; 2; 23; 30; 25; 4294967295; 4294967295; 31; 31; 4294967295; 32; 29;
   4294967295; 33; 4294967295; 18; 4294967295; 16; 13; 4294967295; 14; 26; 4294967295; 27; 32; 4294967295; 33; 9; 1; 4294967295; 34; 21]%Z)).

Definition batch_large_6 : unit := ltac:(holds (gives (batch_large (batch_options 10 UM_IGNORE (Some (SpecFloat.S754_finite false 8444249301319680 (-48))) false 1)) 5
  [3; 4294967295; 1; 0; 0; 1; 2; 2; 4; 1; 4294967295; 2; 4294967295; 4294967295; 4294967295; 0; 4294967295; 3; 4294967295; 4294967295;
   1; 4294967295; 4294967295; 4294967295; 4294967295; 4; 3; 4; 3; 4294967295; 0; 4; 1; 4294967295; 4; 4294967295; 4294967295; 4; 2; 2;
   4294967295; 4294967295; 0; 3; 3; 4294967295; 2; 0; 4294967295; 4294967295; 0; 4; 1; 4294967295; 2; 4294967295; 1; 4294967295; 1; 2;
   4294967295; 0; 4294967295; 4; 4294967295; 4294967295; 4294967295; 4294967295; 0; 1; 4294967295; 4294967295; 4294967295; 4294967295; 4294967295; 2; 2; 3; 4294967295; 4294967295;
   1; 4294967295; 4294967295; 4294967295; 4294967295; 4294967295; 4294967295; 4294967295; 3; 3; 4; 3; 4294967295; 4294967295; 4294967295; 4294967295; 4294967295; 4; 0; 4294967295]%Z)).

Definition batch_large_7 : unit := ltac:(holds (gives (batch_large (batch_options 2 UM_ANY_NEIGHBOR (Some (SpecFloat.S754_finite false 5629499534213120 (-48))) false 10)) 35
  [0; 1; 2; 3; 3; 4; 5; 6; 7; 4294967295; 0; 8; 9; 10; 11; 12; 13; 14; 15; 11;
   4; 16; 17; 18; 6; 19; 20; 19; 20; 21; 34; 22; 4; 23; 22; 4294967295; 11; 22; 8; 10;
   24; 25; 12; 26; 27; 21; 6; 17; 28; 20; 12; 22; 4294967295; 24; 8; 15; 4294967295; 23; 4; 5;
   28; 29; 24; 7; 24; 7; 30; 4294967295; 3; 2; 23; 30; 25; 1; 4294967295; 31; 31; 14; 32; 29;
   2; 33; 17; 18; 25; 16; 13; 33; 14; 26; 7; 27; 32; 4294967295; 33; 9; 1; 7; 34; 21]%Z)).

Definition batch_large_8 : unit := ltac:(holds (gives (batch_large (batch_options 10 UM_ANY_NEIGHBOR (Some (SpecFloat.S754_finite false 8444249301319680 (-48))) false 1)) 5
  [3; 4294967295; 1; 0; 0; 1; 2; 2; 4; 1; 4294967295; 2; 2; 4294967295; 1; 0; 4294967295; 3; 4294967295; 4294967295;
   1; 0; 0; 4294967295; 4294967295; 4; 3; 4; 3; 4294967295; 0; 4; 1; 4294967295; 4; 4294967295; 4294967295; 4; 2; 2;
   3; 4294967295; 0; 3; 3; 4294967295; 2; 0; 2; 4294967295; 0; 4; 1; 3; 2; 4294967295; 1; 0; 1; 2;
   2; 0; 4294967295; 4; 3; 4294967295; 4294967295; 4294967295; 0; 1; 4294967295; 4294967295; 4294967295; 4294967295; 4294967295; 2; 2; 3; 4294967295; 0;
   1; 4294967295; 0; 4294967295; 4294967295; 0; 2; 4294967295; 3; 3; 4; 3; 0; 4294967295; 4294967295; 2; 4294967295; 4; 0; 4294967295]%Z)).

Definition batch_large_9 : unit := ltac:(holds (gives (batch_large (batch_options 2 UM_IGNORE None true 10)) 26
  [0; 1; 2; 3; 3; 4; 5; 6; 7; 22; 0; 4294967295; 4294967295; 4294967295; 4294967295; 4294967295; 4294967295; 4294967295; 4294967295; 4294967295;
   4294967295; 8; 9; 10; 4294967295; 11; 12; 11; 12; 13; 4294967295; 4294967295; 4294967295; 4294967295; 4294967295; 4294967295; 4294967295; 4294967295; 4294967295; 4294967295;
   14; 15; 16; 17; 18; 4294967295; 6; 9; 19; 4294967295; 16; 4294967295; 4294967295; 4294967295; 4294967295; 4294967295; 4294967295; 4294967295; 4; 5;
   19; 20; 4294967295; 7; 14; 4294967295; 21; 22; 4294967295; 2; 4294967295; 21; 15; 4294967295; 4294967295; 24; 4294967295; 25; 4294967295; 20;
   4294967295; 23; 4294967295; 10; 4294967295; 8; 24; 4294967295; 25; 17; 4294967295; 18; 4294967295; 4294967295; 23; 4294967295; 1; 4294967295; 4294967295; 13]%Z)).

Definition batch_large_10 : unit := ltac:(holds (gives (batch_large (batch_options 10 UM_IGNORE None true 1)) 6
  [0; 1; 2; 4294967295; 4294967295; 2; 3; 3; 4; 2; 0; 3; 4294967295; 4294967295; 4294967295; 1; 4294967295; 0; 5; 4294967295;
   2; 4294967295; 4294967295; 4; 5; 4; 4294967295; 4; 4294967295; 5; 1; 4; 2; 4294967295; 4; 4294967295; 4294967295; 4; 3; 3;
   0; 4294967295; 1; 0; 0; 5; 3; 4294967295; 4294967295; 4294967295; 1; 4; 2; 0; 3; 4294967295; 4294967295; 4294967295; 2; 3;
   4294967295; 4294967295; 0; 4; 0; 4294967295; 4294967295; 2; 4294967295; 2; 4294967295; 4294967295; 4294967295; 1; 4294967295; 3; 3; 4294967295; 1; 5;
   2; 5; 5; 4294967295; 4294967295; 4294967295; 4294967295; 5; 4294967295; 4294967295; 4; 0; 1; 4294967295; 5; 4294967295; 1; 4294967295; 1; 5]%Z)).

Definition batch_large_11 : unit := ltac:(holds (gives (batch_large (batch_options 2 UM_ANY_NEIGHBOR None true 10)) 26
  [0; 1; 2; 3; 3; 4; 5; 6; 7; 22; 0; 4294967295; 4294967295; 4294967295; 4294967295; 4294967295; 4294967295; 4294967295; 4294967295; 4294967295;
   4; 8; 9; 10; 6; 11; 12; 11; 12; 13; 4294967295; 4294967295; 4294967295; 4294967295; 4294967295; 4294967295; 4294967295; 4294967295; 4294967295; 4294967295;
   14; 15; 16; 17; 18; 13; 6; 9; 19; 12; 16; 4294967295; 4294967295; 4294967295; 4294967295; 4294967295; 4294967295; 4294967295; 4; 5;
   19; 20; 14; 7; 14; 7; 21; 22; 3; 2; 4294967295; 21; 15; 4294967295; 4294967295; 24; 4294967295; 25; 4294967295; 20;
   2; 23; 9; 10; 15; 8; 24; 23; 25; 17; 4294967295; 18; 4294967295; 4294967295; 23; 4294967295; 1; 4294967295; 4294967295; 13]%Z)).

Definition batch_large_12 : unit := ltac:(holds (gives (batch_large (batch_options 10 UM_ANY_NEIGHBOR None true 1)) 6
  [0; 1; 2; 1; 1; 2; 3; 3; 4; 2; 0; 3; 4294967295; 4294967295; 4294967295; 1; 4294967295; 0; 5; 4294967295;
   2; 1; 0; 4; 5; 4; 0; 4; 0; 5; 1; 4; 2; 4294967295; 4; 4294967295; 4294967295; 4; 3; 3;
   0; 5; 1; 0; 0; 5; 3; 1; 3; 0; 1; 4; 2; 0; 3; 4294967295; 4294967295; 4294967295; 2; 3;
   3; 5; 0; 4; 0; 4; 4; 2; 1; 2; 4294967295; 4294967295; 4294967295; 1; 4294967295; 3; 3; 4294967295; 1; 5;
   2; 5; 5; 4; 0; 5; 3; 5; 0; 0; 4; 0; 1; 4294967295; 5; 4294967295; 1; 4294967295; 1; 5]%Z)).

Definition batch_large_13 : unit := ltac:(holds (gives (batch_large (batch_options 2 UM_IGNORE (Some (SpecFloat.S754_finite false 5629499534213120 (-48))) true 10)) 25
  [0; 1; 2; 3; 3; 4; 5; 6; 7; 4294967295; 0; 4294967295; 4294967295; 4294967295; 4294967295; 4294967295; 4294967295; 4294967295; 4294967295; 4294967295;
   4294967295; 8; 9; 10; 4294967295; 11; 12; 11; 12; 13; 4294967295; 4294967295; 4294967295; 4294967295; 4294967295; 4294967295; 4294967295; 4294967295; 4294967295; 4294967295;
   14; 15; 16; 17; 18; 4294967295; 6; 9; 19; 4294967295; 16; 4294967295; 4294967295; 4294967295; 4294967295; 4294967295; 4294967295; 4294967295; 4; 5;
   19; 20; 4294967295; 7; 14; 4294967295; 21; 4294967295; 4294967295; 2; 4294967295; 21; 15; 4294967295; 4294967295; 23; 4294967295; 24; 4294967295; 20;
   4294967295; 22; 4294967295; 10; 4294967295; 8; 23; 4294967295; 24; 17; 4294967295; 18; 4294967295; 4294967295; 22; 4294967295; 1; 4294967295; 4294967295; 13]%Z)).

Definition batch_large_14 : unit := ltac:(holds (gives (batch_large (batch_options 10 UM_IGNORE (Some (SpecFloat.S754_finite false 8444249301319680 (-48))) true 1)) 4
  [4294967295; 4294967295; 1; 0; 0; 1; 2; 2; 4294967295; 1; 4294967295; 2; 4294967295; 4294967295; 3; 0; 4294967295; 3; 4294967295; 4294967295;
   1; 4294967295; 4294967295; 4294967295; 4294967295; 4294967295; 3; 4294967295; 3; 4294967295; 0; 4294967295; 1; 4294967295; 4294967295; 4294967295; 4294967295; 4294967295; 2; 2;
   4294967295; 4294967295; 0; 4294967295; 3; 4294967295; 2; 0; 4294967295; 3; 0; 4294967295; 1; 4294967295; 2; 4294967295; 1; 4294967295; 1; 2;
   4294967295; 0; 4294967295; 4294967295; 4294967295; 4294967295; 4294967295; 4294967295; 0; 1; 4294967295; 4294967295; 4294967295; 4294967295; 3; 2; 2; 3; 4294967295; 4294967295;
   1; 4294967295; 4294967295; 4294967295; 4294967295; 4294967295; 4294967295; 4294967295; 3; 4294967295; 4294967295; 3; 4294967295; 4294967295; 4294967295; 4294967295; 4294967295; 4294967295; 0; 4294967295]%Z)).

Definition batch_large_15 : unit := ltac:(holds (gives (batch_large (batch_options 2 UM_ANY_NEIGHBOR (Some (SpecFloat.S754_finite false 5629499534213120 (-48))) true 10)) 25
  [0; 1; 2; 3; 3; 4; 5; 6; 7; 4294967295; 0; 4294967295; 4294967295; 4294967295; 4294967295; 4294967295; 4294967295; 4294967295; 4294967295; 4294967295;
   4; 8; 9; 10; 6; 11; 12; 11; 12; 13; 4294967295; 4294967295; 4294967295; 4294967295; 4294967295; 4294967295; 4294967295; 4294967295; 4294967295; 4294967295;
   14; 15; 16; 17; 18; 13; 6; 9; 19; 12; 16; 4294967295; 4294967295; 4294967295; 4294967295; 4294967295; 4294967295; 4294967295; 4; 5;
   19; 20; 14; 7; 14; 7; 21; 4294967295; 3; 2; 4294967295; 21; 15; 4294967295; 4294967295; 23; 4294967295; 24; 4294967295; 20;
   2; 22; 9; 10; 15; 8; 23; 22; 24; 17; 4294967295; 18; 4294967295; 4294967295; 22; 4294967295; 1; 4294967295; 4294967295; 13]%Z)).

Definition batch_large_16 : unit := ltac:(holds (gives (batch_large (batch_options 10 UM_ANY_NEIGHBOR (Some (SpecFloat.S754_finite false 8444249301319680 (-48))) true 1)) 4
  [4294967295; 4294967295; 1; 0; 0; 1; 2; 2; 4294967295; 1; 4294967295; 2; 4294967295; 4294967295; 3; 0; 4294967295; 3; 4294967295; 4294967295;
   1; 0; 0; 4294967295; 4294967295; 2; 3; 4294967295; 3; 4294967295; 0; 4294967295; 1; 4294967295; 4294967295; 4294967295; 4294967295; 4294967295; 2; 2;
   3; 4294967295; 0; 4294967295; 3; 4294967295; 2; 0; 2; 3; 0; 4294967295; 1; 4294967295; 2; 4294967295; 1; 4294967295; 1; 2;
   2; 0; 4294967295; 4294967295; 3; 4294967295; 4294967295; 4294967295; 0; 1; 4294967295; 4294967295; 4294967295; 4294967295; 3; 2; 2; 3; 4294967295; 4294967295;
   1; 4294967295; 0; 4294967295; 4294967295; 0; 2; 4294967295; 3; 4294967295; 4294967295; 3; 4294967295; 4294967295; 4294967295; 4294967295; 4294967295; 4294967295; 0; 4294967295]%Z)).

(** tests/test_nng_findseeds.c. The graphs are drawn there as matrices, here
    given as rows; the result starts at capacity 1 and ends with no room left. *)
Fixpoint row_starts (a : nat) (rows : list (list nat)) : list nat :=
  match rows with [] => [a] | r :: rows => a :: row_starts (a + length r) rows end.
Definition rows_graph (rows : list (list nat)) : digraph :=
  DG (length rows) (length (concat rows)) (farr 0 (concat rows)) (farr 1 (row_starts 0 rows)).
Definition two_blocks : world := World (fun _ => false) 2 [0; 1] no_errst 0 0.
Definition seeds_are (g : digraph) (sm : seed_method) (l : list nat) : bool :=
  match find_seeds default_config g sm (SR 1 0 None) two_blocks with
  | Ok ((ER_OK, sr), _) =>
      bool_decide (sr_count sr = length l) && bool_decide (sr_cap sr = length l) && bool_decide ((a_cells <$> sr_seeds sr) = Some (Some <$> l))
  | _ => false
  end.

Definition graph_plain : digraph := rows_graph
  [[1; 4]; [0; 4]; [4; 7]; [0; 4]; [1; 3]; [2; 8]; [3; 9]; [6; 8]; [5; 11]; [10; 16]; [7; 13]; [8; 10]; [15; 16]; [14; 17]; [13; 17]; [9; 12]; [13; 14]; [14; 16]].
Example seeds_plain_1 : seeds_are graph_plain SM_LEXICAL [0; 5; 6; 10; 12] = true.
Proof. vm_compute. reflexivity. Qed.
Example seeds_plain_2 : seeds_are graph_plain SM_INWARDS_ORDER [2; 6; 11; 12; 13] = true.
Proof. vm_compute. reflexivity. Qed.
Example seeds_plain_3 : seeds_are graph_plain SM_INWARDS_UPDATING [2; 6; 11; 12; 13] = true.
Proof. vm_compute. reflexivity. Qed.
Example seeds_plain_3alt : seeds_are graph_plain SM_INWARDS_UPDATING [2; 6; 11; 12; 13] = true.
Proof. vm_compute. reflexivity. Qed.
Example seeds_plain_4 : seeds_are graph_plain SM_EXCLUSION_ORDER [8; 15; 0; 13] = true.
Proof. vm_compute. reflexivity. Qed.
Example seeds_plain_5 : seeds_are graph_plain SM_EXCLUSION_UPDATING [8; 15; 17; 10; 4] = true.
Proof. vm_compute. reflexivity. Qed.

Definition graph_diagonal : digraph := rows_graph
  [[0; 1; 4]; [0; 1; 4]; [2; 4; 7]; [0; 3; 4]; [1; 3; 4]; [2; 5; 8]; [3; 6; 9]; [6; 7; 8]; [5; 8; 11]; [9; 10; 16]; [7; 10; 13]; [8; 10; 11]; [12; 15; 16]; [13; 14; 17]; [13; 14; 17]; [9; 12; 15]; [13; 14; 16]; [14; 16; 17]].
Example seeds_diagonal_1 : seeds_are graph_diagonal SM_LEXICAL [0; 5; 6; 10; 12] = true.
Proof. vm_compute. reflexivity. Qed.
Example seeds_diagonal_2 : seeds_are graph_diagonal SM_INWARDS_ORDER [2; 6; 11; 12; 13] = true.
Proof. vm_compute. reflexivity. Qed.
Example seeds_diagonal_3 : seeds_are graph_diagonal SM_INWARDS_UPDATING [2; 6; 11; 12; 13] = true.
Proof. vm_compute. reflexivity. Qed.
Example seeds_diagonal_3alt : seeds_are graph_diagonal SM_INWARDS_UPDATING [2; 6; 11; 12; 13] = true.
Proof. vm_compute. reflexivity. Qed.
Example seeds_diagonal_4 : seeds_are graph_diagonal SM_EXCLUSION_ORDER [8; 15; 0; 13] = true.
Proof. vm_compute. reflexivity. Qed.
Example seeds_diagonal_5 : seeds_are graph_diagonal SM_EXCLUSION_UPDATING [8; 15; 17; 10; 4] = true.
Proof. vm_compute. reflexivity. Qed.

(** tests/test_scclust.c 644-728. The recorded numbers are rounded; as in
    tests/double_assert.h they need only agree to within 0.000001. *)
Definition near (x y : double) : bool := negb (d_ge (SpecFloat.SFabs (d_sub x y)) (SpecFloat.S754_finite false 4722366482869645 (-72))).
Definition stats_match (ds : dataset) (k : nat) (l : list Z) (s : stats) : bool :=
  match get_clustering_stats default_config builtin (Some ds) (Some (Clu clustering_version (length l) k (farr 0 l) true)) true (world_old (fun _ => false)) with
  | Ok ((ER_OK, Some s'), _) =>
      bool_decide (st_n s' = st_n s) && bool_decide (st_assigned s' = st_assigned s) && bool_decide (st_k s' = st_k s) && bool_decide (st_pop s' = st_pop s) &&
      bool_decide (st_minsize s' = st_minsize s) && bool_decide (st_maxsize s' = st_maxsize s) &&
      near (st_avgsize s') (st_avgsize s) && near (st_sum s') (st_sum s) && near (st_min s') (st_min s) && near (st_max s') (st_max s) &&
      near (st_avgmin s') (st_avgmin s) && near (st_avgmax s') (st_avgmax s) && near (st_avgw s') (st_avgw s) && near (st_avgu s') (st_avgu s)
  | _ => false
  end.

Definition stats_small : unit := ltac:(holds (stats_match small 4
  [0; 1; 3; 2; 2; 3; 2; 1; 1; 0; 3; 3; 2; 1; 1]%Z
  (Stats 15 15 4 4 2 5 (SpecFloat.S754_finite false 8444249301319680 (-51)) (SpecFloat.S754_finite false 5847987729485326 (-48)) (SpecFloat.S754_finite false 5518458781800673 (-58)) (SpecFloat.S754_finite false 4943445936777449 (-51)) (SpecFloat.S754_finite false 5818902920141814 (-53)) (SpecFloat.S754_finite false 7943268878770986 (-52)) (SpecFloat.S754_finite false 4645751246008818 (-52)) (SpecFloat.S754_finite false 5327154876829229 (-52))))).

Definition stats_large : unit := ltac:(holds (stats_match large 6
  [4294967295; 0; 4294967295; 4294967295; 4294967295; 1; 4294967295; 4294967295; 3; 4294967295; 4294967295; 4294967295; 4294967295; 4294967295; 4294967295; 4294967295; 0; 4294967295; 4294967295; 4294967295;
   4294967295; 3; 4294967295; 0; 4294967295; 5; 4294967295; 5; 4294967295; 4294967295; 4294967295; 4294967295; 4294967295; 4294967295; 4294967295; 1; 4294967295; 4294967295; 3; 4294967295;
   4294967295; 3; 4294967295; 4294967295; 4294967295; 4294967295; 4294967295; 4294967295; 4294967295; 4294967295; 4294967295; 4294967295; 4294967295; 1; 1; 4294967295; 4294967295; 4; 4294967295; 4294967295;
   4294967295; 4294967295; 4294967295; 4294967295; 4294967295; 4294967295; 4294967295; 4294967295; 4294967295; 4294967295; 4294967295; 4294967295; 4294967295; 4294967295; 4294967295; 4294967295; 4294967295; 4294967295; 4294967295; 4294967295;
   4294967295; 4294967295; 4294967295; 4294967295; 4294967295; 4294967295; 4294967295; 4294967295; 4294967295; 4294967295; 4294967295; 4294967295; 4294967295; 4294967295; 4294967295; 4294967295; 4294967295; 4294967295; 4294967295; 4294967295]%Z
  (Stats 100 14 6 5 1 4 (SpecFloat.S754_finite false 6305039478318694 (-51)) (SpecFloat.S754_finite false 4954097495253948 (-42)) (SpecFloat.S754_zero false) (SpecFloat.S754_finite false 7240918161658745 (-46)) (SpecFloat.S754_finite false 7966267354693084 (-48)) (SpecFloat.S754_finite false 8425629450135293 (-47)) (SpecFloat.S754_finite false 8479540633899662 (-47)) (SpecFloat.S754_finite false 6636499907293536 (-47))))).

