-Q theories Verif
theories/PyStr.v
theories/Regex.v
theories/Grammar.v
theories/NoteTable.v
theories/Note.v
theories/PyLib.v
theories/Utils.v
theories/FieldAttrs.v
theories/Types.v
theories/Fields1.v
theories/Fields2.v
theories/Fields3.v
theories/Framework.v
theories/Checks.v
theories/Message.v
theories/Spans.v
theories/EvLogic.v
theories/NoteLemmas.v
theories/TestEnv.v
theories/ContentLemmas.v
theories/GzipLemmas.v
theories/PipeLemmas.v
theories/FrameLemmas.v
theories/BodyLemmas.v
theories/LexLemmas.v
theories/ParamLemmas.v
theories/NumLemmas.v
theories/NameLemmas.v
theories/DateLemmas.v
theories/PassParse.v
theories/PassEval.v
theories/PassSF.v
theories/PassFrame.v
theories/PassSec.v
theories/PassProc.v
theories/PassMsg.v
theories/Session.v
theories/PassRun.v
theories/RenderLemmas.v
theories/SessionLemmas.v
theories/PropNotes.v
theories/PropContent.v
theories/PropParse.v
theories/PropDate.v
theories/PropRun.v
theories/PropBody.v
theories/EndLemmas.v
theories/PropTop.v
theories/StatusSpec.v
theories/StatusLemmas.v
theories/PropStatus.v
theories/SectionLemmas.v
theories/SecNotes.v
theories/SecValues.v
theories/LintLemmas.v
theories/FieldSpec.v
theories/PropFields.v
theories/Describe.v
theories/ShunLemmas.v
theories/PropValues.v
theories/PropNames.v
theories/PropSyntax.v
theories/FieldExamples.v
theories/CacheSpec.v
theories/CacheLemmas.v
theories/PropCache.v
theories/OwnLemmas.v
theories/ListSpec.v
theories/PropLists.v
theories/PropCC.v
theories/ListExamples.v
theories/PropCors.v
theories/OffsetLemmas.v
theories/PropOffsets.v
theories/Cli.v
theories/PropCli.v
theories/Cat_es.v
theories/Cat_fr.v
theories/Cat_ja.v
theories/Cat_zh.v
theories/Locale.v
theories/PropLocale.v
theories/PropSpans.v
theories/RankSpec.v
theories/RankLemmas.v
theories/RankRun.v
theories/PropRank.v
theories/PropOrder.v
theories/OrderExamples.v
theories/PropInts.v
theories/PropChunks.v
theories/FieldDue.v
theories/OwnTac.v
theories/PropPolicy.v
theories/RangeSpec.v
theories/PropRange.v
theories/OriginSpec.v
theories/PropStart.v
theories/CodingSpec.v
theories/PropCodings.v
theories/OwnMore.v
theories/CookieSpec.v
theories/CookieDate.v
theories/PropCookies.v
theories/PrefSpec.v
theories/PropPrefs.v
theories/PlainSpec.v
theories/PropPlain.v
theories/LinkSpec.v
theories/PropLink.v
theories/SFSpec.v
theories/PropSF.v
theories/KidSpec.v
theories/OwnFull.v
theories/HstsSpec.v
theories/PropHsts.v
theories/ShowSpec.v
theories/PropShow.v
theories/PermissionsSpec.v
theories/PropPermissions.v
theories/GroupRun.v
theories/GroupPost.v
theories/IsolationSpec.v
theories/PropIsolation.v
theories/ConnegSpec.v
theories/PropConneg.v
theories/NelSpec.v
theories/PropNel.v
theories/CspSpec.v
theories/PropCsp.v
theories/OwnAt.v
theories/ClearSpec.v
theories/PropClear.v
theories/ClockSpec.v
theories/PropClock.v
theories/CharsetSpec.v
theories/PropCharset.v
theories/FramingSpec.v
theories/PropFraming.v
theories/UselessSpec.v
theories/PropUseless.v
theories/SFShowSpec.v
theories/PropSFShow.v
theories/GeneralSpec.v
theories/PropGeneral.v
theories/CacheNotesSpec.v
theories/PropCacheNotes.v
theories/CookieShowSpec.v
theories/PropCookieShow.v
theories/ExtParamSpec.v
theories/PropExtParam.v
theories/ReadingSpec.v
theories/PropReading.v
theories/RestSpec.v
theories/PropRest.v
theories/ReadMoreSpec.v
theories/PropReadMore.v
theories/FiledSpec.v
theories/PropFiled.v
theories/FiledPass.v
theories/FiledDate.v
theories/PropFiledOwn.v
