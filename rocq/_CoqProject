-Q theories Verif
theories/Base.v
theories/Utf8.v
theories/Types.v
theories/Hash.v
theories/Encode.v
theories/Decode.v
theories/Enums.v
theories/Protocol.v
theories/Definitions.v
theories/Message.v
theories/Frames.v
theories/Accessors.v
theories/Io.v
theories/Equal.v
theories/BaseFacts.v
theories/Utf8Spec.v
theories/Utf8Facts.v
theories/Valid.v
theories/Wire.v
theories/PrimFacts.v
theories/DecLaws.v
theories/EncLaws.v
theories/VariantFacts.v
theories/TypeSpec.v
theories/TypeFacts.v
theories/CompositeSpec.v
theories/CompositeFacts.v
theories/AllTypes.v
theories/AllTypesFacts.v
theories/CodecSpec.v
theories/EqFacts.v
theories/CodecFacts.v
theories/MapFacts.v
theories/ValueFacts.v
theories/DepthFacts.v
theories/PanicFacts.v
theories/SmallFacts.v
theories/ExactFacts.v
theories/CompositeReads.v
theories/GrammarSpec.v
theories/GrammarFacts.v
theories/RelayFacts.v
theories/EqualitySpec.v
theories/EqualityFacts.v
theories/CodecClaims.v
theories/EqualityClaims.v
theories/CompositeClaims.v
theories/GrammarClaims.v
theories/MessageSpec.v
theories/MessageFacts.v
theories/BuilderFacts.v
theories/MessageClaims.v
theories/FrameSpec.v
theories/FrameFacts.v
theories/FramingFacts.v
theories/FrameClaims.v
theories/StreamSpec.v
theories/StreamFacts.v
theories/StreamClaims.v
theories/EqualSpec.v
theories/EqualFacts.v
theories/EqualFrameFacts.v
theories/EqualClaims.v
theories/FrameGrammarSpec.v
theories/FrameGrammarFacts.v
theories/FrameGrammarClaims.v
theories/Reserve.v
theories/ReserveSpec.v
theories/ReserveFacts.v
theories/ReserveClaims.v
theories/ErrorSpec.v
theories/ErrorFacts.v
theories/ErrorClaims.v
theories/BoundSpec.v
theories/BoundFacts.v
theories/BoundClaims.v
theories/Connection.v
theories/ConnectionSpec.v
theories/ConnectionFacts.v
theories/ConnectionClaims.v
theories/Work.v
theories/WorkSpec.v
theories/WorkFacts.v
theories/WorkClaims.v
theories/DeliverySpec.v
theories/DeliveryFacts.v
theories/DeliveryClaims.v
theories/Convert.v
theories/ConvertSpec.v
theories/ConvertFacts.v
theories/ConvertClaims.v
theories/FrameRelayFacts.v
theories/RelayClaims.v
theories/Codegen.v
theories/SpecJson.v
theories/Template.v
theories/GenSpec.v
theories/NameFacts.v
theories/TemplateFacts.v
theories/GenFacts.v
theories/SpecFacts.v
theories/JsonFacts.v
theories/GenClaims.v
theories/AccessorSpec.v
theories/AccessorFacts.v
theories/AccessorClaims.v
theories/Display.v
theories/DisplaySpec.v
theories/DisplayFacts.v
theories/DisplayClaims.v
theories/Room.v
theories/RoomSpec.v
theories/RoomFacts.v
theories/RoomClaims.v
theories/ModeSpec.v
theories/ModeFacts.v
theories/ModeClaims.v
theories/RepoText.v
theories/Handlebars.v
theories/RenderSpec.v
theories/RenderFacts.v
theories/DeclFacts.v
theories/BlankFacts.v
theories/BlockFacts.v
theories/ReaderFacts.v
theories/WholeFacts.v
theories/RenderClaims.v
