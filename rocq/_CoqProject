-Q theories Verif
theories/Py.v
theories/PyFacts.v
theories/Stmt.v
theories/PolicyModel.v
theories/PolicyFacts.v
theories/CombineFacts.v
theories/PolicySpec.v
theories/PolicyLemmas.v
theories/PolicyOps.v
theories/PolicyOps2.v
theories/PolicyOrder.v
theories/PolicyOrder2.v
theories/PolicyTwice.v
theories/PolicyStrict.v
theories/ExampleKit.v
theories/PolicyProps.v
theories/ConstraintsModel.v
theories/ConstraintsSpec.v
theories/ConstraintsFacts.v
theories/ConstraintsProps.v
theories/VerifierModel.v
theories/VerifierSpec.v
theories/VerifierFacts.v
theories/VerifierProps.v
theories/StateM.v
theories/TreeModel.v
theories/TreeProps.v
theories/CacheModel.v
theories/CacheProps.v
theories/CollectorModel.v
theories/CollectorSpec.v
theories/CollectorFacts.v
theories/CollectorProps.v
theories/CollectorRepeat.v
theories/CollectorRepeatProps.v
theories/FederationModel.v
theories/ChainsSpec.v
theories/ChainsProps.v
theories/FederationSpec.v
theories/FederationProps.v
theories/TrustMarkModel.v
theories/TrustMarkSpec.v
theories/TrustMarkFacts.v
theories/TrustMarkProps.v
theories/TrustMarkVerifierModel.v
theories/TrustMarkVerifierProps.v
theories/FetchModel.v
theories/FetchFacts.v
theories/FetchProps.v
theories/ConfigModel.v
theories/ConfigProps.v
theories/ListModel.v
theories/ListProps.v
theories/MessageModel.v
theories/MessageProps.v
theories/RegistrationModel.v
theories/RegistrationFacts.v
theories/RegistrationProps.v
theories/RegistrationUriProps.v
theories/RegistrationGrantProps.v
theories/ClientModel.v
theories/ClientFacts.v
theories/ClientProps.v
theories/ResolveModel.v
theories/ResolveFacts.v
theories/ResolveProps.v
theories/WellRunSpec.v
theories/WellRunFacts.v
theories/WellRunProps.v
theories/RpModel.v
theories/RpSpec.v
theories/RpFacts.v
theories/RpProps.v
theories/RpUseProps.v
theories/TrawlModel.v
theories/TrawlSpec.v
theories/TrawlFacts.v
theories/TrawlProps.v
theories/WhoFacts.v
theories/WhoProps.v
theories/PublishModel.v
theories/PublishFacts.v
theories/PublishProps.v
theories/BuildModel.v
theories/BuildSpec.v
theories/BuildFacts.v
theories/BuildProps.v
theories/HttpModel.v
theories/HttpProps.v
theories/SessionModel.v
theories/SessionSpec.v
theories/SessionFacts.v
theories/SessionProps.v
theories/LiveFacts.v
theories/LiveExample.v
theories/LiveMarkProps.v
theories/LiveResolveProps.v
theories/LiveRegisterProps.v
theories/LiveAnswerProps.v
theories/FilesModel.v
theories/FilesProps.v
theories/AttackSpec.v
theories/AttackFacts.v
theories/AttackProps.v
theories/AttackMarkFacts.v
theories/AttackMarkProps.v
theories/AttackServerFacts.v
theories/AttackServerProps.v
theories/AttackClientFacts.v
theories/AttackClientProps.v
theories/UrlModel.v
theories/UrlFacts.v
theories/UrlProps.v
theories/UnitsModel.v
theories/UnitsProps.v
theories/ResponseModel.v
theories/ResponseProps.v
theories/EndpointsModel.v
theories/EndpointsProps.v
theories/ContextModel.v
theories/RequestProps.v
theories/ContextProps.v
theories/GuiseModel.v
theories/GuiseProps.v
theories/StatementProps.v
theories/LiveLoginProps.v
theories/ScriptModel.v
theories/ScriptProps.v
theories/SetupProps.v
theories/TreeScriptProps.v
theories/ListSetupProps.v
theories/ViewModel.v
theories/ViewProps.v
theories/HintFacts.v
theories/TextKit.v
theories/WebFacts.v
theories/WebProps.v
theories/RevokeSpec.v
theories/RevokeFacts.v
theories/RevokeProps.v
theories/StaleSpec.v
theories/StaleFacts.v
theories/StaleProps.v
theories/MotionSpec.v
theories/MotionFacts.v
theories/MotionLive.v
theories/MotionProps.v
theories/OutageProps.v
theories/NeverWrongProps.v
theories/ClientsRightProps.v
theories/ResolverRightProps.v
theories/MarksRightProps.v
theories/RpRightProps.v
theories/AnswersRightProps.v
theories/AgreementProps.v
theories/GetInProps.v
theories/KnowsOpProps.v
theories/TakenProps.v
theories/ResolvesProps.v
theories/MarksTakenProps.v
theories/ExplicitProps.v
theories/RelyingProps.v
theories/ListingProps.v
theories/OauthModel.v
theories/OauthProps.v
theories/OauthOutageProps.v
theories/OwnNameProps.v
theories/ForgedProps.v
theories/PoisonProps.v
theories/KeysGrowProps.v
theories/AuthenticProps.v
theories/AnchorProps.v
theories/AnchorKeysProps.v
theories/ClientKeysProps.v
theories/BroughtProps.v
theories/MarkListModel.v
theories/MarkListProps.v
theories/InfoResponseModel.v
theories/InfoResponseProps.v
theories/LoginEndProps.v
theories/CombinedModel.v
theories/CombinedProps.v
theories/DelegatedProps.v
