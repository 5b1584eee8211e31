-Q theories Verif
theories/Base.v
theories/BaseFacts.v
theories/Utf8.v
theories/HttpDate.v
theories/DateSpec.v
theories/HttpDateFacts.v
theories/HttpDateText.v
theories/DateProps.v
theories/Method.v
theories/StatusCode.v
theories/EnumProps.v
theories/Headers.v
theories/HeadersFacts.v
theories/HeadersProps.v
theories/Mime.v
theories/MimeFacts.v
theories/MimeProps.v
theories/MimeExactProps.v
theories/Body.v
theories/BodyFacts.v
theories/BodyProps.v
theories/Message.v
theories/Channel.v
theories/ChannelProps.v
theories/MessageProps.v
theories/ParseUtils.v
theories/ParseUtilsFacts.v
theories/Forwarded.v
theories/ForwardedFacts.v
theories/ForwardedProps.v
theories/ForwardedExactProps.v
theories/Typed.v
theories/TypedFacts.v
theories/Conditional.v
theories/ConditionalProps.v
theories/Cache.v
theories/CacheProps.v
theories/Auth.v
theories/AuthProps.v
theories/AuthExactProps.v
theories/Float.v
theories/FloatFacts.v
theories/Negotiate.v
theories/NegotiateFacts.v
theories/NegotiateProps.v
theories/NegotiateExactProps.v
theories/Other.v
theories/OtherProps.v
theories/Security.v
theories/SecurityProps.v
theories/Trace.v
theories/TraceProps.v
theories/Timing.v
theories/TimingProps.v
theories/Hyperium.v
theories/HyperiumProps.v
theories/LastProps.v
theories/StableProps.v
theories/InjectProps.v
theories/RegistryProps.v
theories/ErrorProps.v
theories/BlankProps.v
theories/FloatProps.v
theories/MessageOps.v
theories/MessageOpsProps.v
theories/OwnProps.v
theories/ExactProps.v
theories/Lists.v
theories/ListsProps.v
theories/Errors.v
theories/ErrorsProps.v
theories/Files.v
theories/FilesProps.v
theories/QuotedProps.v
theories/HeaderIter.v
theories/HeaderIterProps.v
theories/Query.v
theories/QueryProps.v
theories/TimingExactProps.v
theories/Clock.v
theories/ClockProps.v
theories/Compare.v
theories/CompareProps.v
theories/Setters.v
theories/SettersProps.v
theories/GrammarProps.v
theories/AcceptGrammarProps.v
theories/TimingGrammarProps.v
theories/DateGrammarProps.v
theories/SharperProps.v
theories/PartsProps.v
theories/Single.v
theories/SingleProps.v
theories/RoundTripProps.v
theories/ValuesProps.v
theories/TripProps.v
theories/AlikeProps.v
theories/SizeProps.v
theories/Debug.v
theories/DebugProps.v
theories/RepoTests.v
theories/ReportTo.v
theories/CspProps.v
theories/Rfc.v
theories/InteropProps.v
theories/InteropReadProps.v
theories/InteropMediaProps.v
theories/InteropDateProps.v
theories/InteropTimingProps.v
theories/SpecificProps.v
theories/TraceW3cProps.v
theories/StableForwardedProps.v
theories/ListsSentProps.v
theories/AlikeMoreProps.v
theories/DebugMore.v
theories/DebugMoreProps.v
theories/RevalidateProps.v
theories/ChainProps.v
theories/WireProps.v
theories/AccessProps.v
theories/BuildProps.v
theories/FreshProps.v
theories/DebugMessage.v
theories/DebugMessageProps.v
theories/ConnectionProps.v
theories/MiddlewareProps.v
theories/ChoiceProps.v
theories/NestingProps.v
theories/RelayTimingProps.v
theories/BrowserProps.v
theories/OriginProps.v
theories/SharedCacheProps.v
theories/HelperProps.v
theories/FrontProps.v
theories/EditProps.v
theories/CallTreeProps.v
theories/FormProps.v
theories/RetryProps.v
theories/RefererProps.v
theories/ForgetProps.v
theories/RefusalProps.v
theories/ContinueProps.v
theories/WaitProps.v
